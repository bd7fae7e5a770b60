(** Generated by tools/shipped.py from the files of /repo/tables: tables D. *)
From Verif Require Import Shipped.Text.
Local Open Scope text_scope.

Definition d0 : text := " 300002  2 000002".
Definition d1 : text := "           000003".
Definition d2 : text := " 300003  3 000010".
Definition d3 : text := "           000011".
Definition d4 : text := "           000012".
Definition d5 : text := " 300004  9 300003".
Definition d6 : text := "           000013".
Definition d7 : text := "           000014".
Definition d8 : text := "           000015".
Definition d9 : text := "           000016".
Definition d10 : text := "           000017".
Definition d11 : text := "           000018".
Definition d12 : text := "           000019".
Definition d13 : text := "           000020".
Definition d14 : text := " 300010  4 300003".
Definition d15 : text := "           101000".
Definition d16 : text := "           031001".
Definition d17 : text := "           000030".
Definition d18 : text := " 301001  2 001001".
Definition d19 : text := "           001002".
Definition d20 : text := " 301002  3 001003".
Definition d21 : text := "           001004".
Definition d22 : text := "           001005".
Definition d23 : text := " 301003  3 001011".
Definition d24 : text := "           001012".
Definition d25 : text := "           001013".
Definition d26 : text := " 301004  4 001001".
Definition d27 : text := "           001015".
Definition d28 : text := "           002001".
Definition d29 : text := " 301011  3 004001".
Definition d30 : text := "           004002".
Definition d31 : text := "           004003".
Definition d32 : text := " 301012  2 004004".
Definition d33 : text := "           004005".
Definition d34 : text := " 301013  3 004004".
Definition d35 : text := "           004006".
Definition d36 : text := " 301021  2 005001".
Definition d37 : text := "           006001".
Definition d38 : text := " 301022  3 005001".
Definition d39 : text := "           007001".
Definition d40 : text := " 301023  2 005002".
Definition d41 : text := "           006002".
Definition d42 : text := " 301024  3 005002".
Definition d43 : text := " 301025  3 301023".
Definition d44 : text := "           301012".
Definition d45 : text := " 301026  7 301021".
Definition d46 : text := "           004004".
Definition d47 : text := " 301031  5 301001".
Definition d48 : text := "           301011".
Definition d49 : text := "           301022".
Definition d50 : text := " 301032  5 301001".
Definition d51 : text := "           301024".
Definition d52 : text := " 301033  5 001005".
Definition d53 : text := "           301021".
Definition d54 : text := " 301034 12 001005".
Definition d55 : text := "           301023".
Definition d56 : text := " 301036  5 301003".
Definition d57 : text := " 301037  6 301001".
Definition d58 : text := "           002011".
Definition d59 : text := "           002012".
Definition d60 : text := " 301038  6 301001".
Definition d61 : text := " 301039  6 301003".
Definition d62 : text := " 301040  6 301003".
Definition d63 : text := " 301041  5 001007".
Definition d64 : text := "           002021".
Definition d65 : text := "           002022".
Definition d66 : text := " 301042  2 301041".
Definition d67 : text := " 301043  5 001007".
Definition d68 : text := "           002023".
Definition d69 : text := "           301013".
Definition d70 : text := " 301044  5 001007".
Definition d71 : text := "           002024".
Definition d72 : text := " 301045  9 301011".
Definition d73 : text := "           201138".
Definition d74 : text := "           202131".
Definition d75 : text := "           201000".
Definition d76 : text := "           202000".
Definition d77 : text := "           304030".
Definition d78 : text := "           304031".
Definition d79 : text := " 301046 10 001007".
Definition d80 : text := "           002048".
Definition d81 : text := "           021119".
Definition d82 : text := "           025060".
Definition d83 : text := "           202124".
Definition d84 : text := "           002026".
Definition d85 : text := "           002027".
Definition d86 : text := "           005040".
Definition d87 : text := " 301047 15 001007".
Definition d88 : text := "           001033".
Definition d89 : text := "           001034".
Definition d90 : text := "           301045".
Definition d91 : text := " 301048 14 002104".
Definition d92 : text := "           002121".
Definition d93 : text := "           002113".
Definition d94 : text := "           002111".
Definition d95 : text := "           002140".
Definition d96 : text := "           202127".
Definition d97 : text := "           202126".
Definition d98 : text := "           025010".
Definition d99 : text := "           021064".
Definition d100 : text := " 301049  5 002111".
Definition d101 : text := "           002112".
Definition d102 : text := "           021062".
Definition d103 : text := "           021063".
Definition d104 : text := "           021065".
Definition d105 : text := " 301051  6 001006".
Definition d106 : text := "           002061".
Definition d107 : text := "           008004".
Definition d108 : text := " 301055  7 001005".
Definition d109 : text := "           001014".
Definition d110 : text := " 301062  3 101000".
Definition d111 : text := "           301001".
Definition d112 : text := " 301065  8 001006".
Definition d113 : text := "           001008".
Definition d114 : text := "           002002".
Definition d115 : text := "           002005".
Definition d116 : text := "           002062".
Definition d117 : text := "           002070".
Definition d118 : text := "           002065".
Definition d119 : text := " 301066  6 301011".
Definition d120 : text := "           007004".
Definition d121 : text := "           002064".
Definition d122 : text := " 301071  5 001007".
Definition d123 : text := "           001031".
Definition d124 : text := "           002020".
Definition d125 : text := "           002028".
Definition d126 : text := "           002029".
Definition d127 : text := " 301072  4 301071".
Definition d128 : text := " 301090  6 301004".
Definition d129 : text := "           007030".
Definition d130 : text := "           007031".
Definition d131 : text := " 301091 10 002180".
Definition d132 : text := "           002181".
Definition d133 : text := "           002182".
Definition d134 : text := "           002183".
Definition d135 : text := "           002184".
Definition d136 : text := "           002179".
Definition d137 : text := "           002186".
Definition d138 : text := "           002187".
Definition d139 : text := "           002188".
Definition d140 : text := "           002189".
Definition d141 : text := " 301092  9 001011".
Definition d142 : text := "           001003".
Definition d143 : text := "           033024".
Definition d144 : text := " 301093  3 301036".
Definition d145 : text := " 301110  5 301001".
Definition d146 : text := "           001011".
Definition d147 : text := "           002014".
Definition d148 : text := "           002003".
Definition d149 : text := " 301111  6 301001".
Definition d150 : text := "           002013".
Definition d151 : text := " 301112  5 001006".
Definition d152 : text := " 301113  3 008021".
Definition d153 : text := " 301114  5 301021".
Definition d154 : text := "           007007".
Definition d155 : text := " 301120  4 301001".
Definition d156 : text := "           001094".
Definition d157 : text := "           301121".
Definition d158 : text := " 301121  5 008041".
Definition d159 : text := "           301122".
Definition d160 : text := " 301122  7 301011".
Definition d161 : text := "           201135".
Definition d162 : text := "           202130".
Definition d163 : text := " 301123 33 102002".
Definition d164 : text := "           008041".
Definition d165 : text := "           001062".
Definition d166 : text := "           001018".
Definition d167 : text := "           001095".
Definition d168 : text := "           025061".
Definition d169 : text := "           025068".
Definition d170 : text := "           001082".
Definition d171 : text := "           001083".
Definition d172 : text := "           001081".
Definition d173 : text := "           002067".
Definition d174 : text := "           002066".
Definition d175 : text := "           025067".
Definition d176 : text := "           025065".
Definition d177 : text := "           025066".
Definition d178 : text := "           002095".
Definition d179 : text := "           002096".
Definition d180 : text := "           002097".
Definition d181 : text := "           002016".
Definition d182 : text := "           002083".
Definition d183 : text := "           002080".
Definition d184 : text := "           002081".
Definition d185 : text := "           001093".
Definition d186 : text := "           002084".
Definition d187 : text := "           002085".
Definition d188 : text := "           002086".
Definition d189 : text := "           002082".
Definition d190 : text := " 301125  6 001033".
Definition d191 : text := "           001007".
Definition d192 : text := "           002019".
Definition d193 : text := " 301193  5 001007".
Definition d194 : text := "           002196".
Definition d195 : text := "           002221".
Definition d196 : text := "           002222".
Definition d197 : text := " 301194  9 001194".
Definition d198 : text := " 301195  9 001195".
Definition d199 : text := " 301196  7 301003".
Definition d200 : text := " 301197  9 001006".
Definition d201 : text := "           002063".
Definition d202 : text := " 301198  9 001011".
Definition d203 : text := " 301200  2 001032".
Definition d204 : text := "           033194".
Definition d205 : text := " 301201  2 101003".
Definition d206 : text := "           033193".
Definition d207 : text := " 301202  2 001031".
Definition d208 : text := "           001032".
Definition d209 : text := " 301237 12 001007".
Definition d210 : text := " 301238 14 002104".
Definition d211 : text := "           002192".
Definition d212 : text := "           021194".
Definition d213 : text := " 301239  5 002111".
Definition d214 : text := "           021192".
Definition d215 : text := "           021193".
Definition d216 : text := "           021195".
Definition d217 : text := " 301240  5 201131".
Definition d218 : text := "           202129".
Definition d219 : text := "           022021".
Definition d220 : text := " 301241  5 201141".
Definition d221 : text := " 301242  6 021207".
Definition d222 : text := "           021208".
Definition d223 : text := "           021209".
Definition d224 : text := "           021210".
Definition d225 : text := "           021211".
Definition d226 : text := "           021212".
Definition d227 : text := " 301250  4 301193".
Definition d228 : text := " 302001  4 010004".
Definition d229 : text := "           010051".
Definition d230 : text := "           010061".
Definition d231 : text := "           010063".
Definition d232 : text := " 302002  5 010004".
Definition d233 : text := "           010003".
Definition d234 : text := " 302003  9 011011".
Definition d235 : text := "           011012".
Definition d236 : text := "           012004".
Definition d237 : text := "           012006".
Definition d238 : text := "           013003".
Definition d239 : text := "           020001".
Definition d240 : text := "           020003".
Definition d241 : text := "           020004".
Definition d242 : text := "           020005".
Definition d243 : text := " 302004  7 020010".
Definition d244 : text := "           008002".
Definition d245 : text := "           020011".
Definition d246 : text := "           020013".
Definition d247 : text := "           020012".
Definition d248 : text := " 302005  4 008002".
Definition d249 : text := " 302006  4 010004".
Definition d250 : text := "           010062".
Definition d251 : text := " 302011  3 302001".
Definition d252 : text := "           302003".
Definition d253 : text := "           302004".
Definition d254 : text := " 302012  3 302002".
Definition d255 : text := " 302013  5 302006".
Definition d256 : text := "           302005".
Definition d257 : text := " 302021  3 022001".
Definition d258 : text := "           022011".
Definition d259 : text := " 302022  3 022002".
Definition d260 : text := "           022012".
Definition d261 : text := "           022022".
Definition d262 : text := " 302023  3 022003".
Definition d263 : text := "           022013".
Definition d264 : text := "           022023".
Definition d265 : text := " 302024  3 302022".
Definition d266 : text := "           101002".
Definition d267 : text := "           302023".
Definition d268 : text := " 302031  4 302001".
Definition d269 : text := "           010009".
Definition d270 : text := " 302032  4 007032".
Definition d271 : text := "           012101".
Definition d272 : text := "           012103".
Definition d273 : text := " 302033  2 007032".
Definition d274 : text := " 302034  2 007032".
Definition d275 : text := "           013023".
Definition d276 : text := " 302035  8 302032".
Definition d277 : text := "           302033".
Definition d278 : text := "           302034".
Definition d279 : text := "           007032".
Definition d280 : text := " 302036  7 105000".
Definition d281 : text := "           020014".
Definition d282 : text := "           020017".
Definition d283 : text := " 302037  3 020062".
Definition d284 : text := "           013013".
Definition d285 : text := "           012113".
Definition d286 : text := " 302038  4 020003".
Definition d287 : text := "           004024".
Definition d288 : text := " 302039  2 004024".
Definition d289 : text := "           014031".
Definition d290 : text := " 302040  4 007032".
Definition d291 : text := "           102002".
Definition d292 : text := "           013011".
Definition d293 : text := " 302041  7 007032".
Definition d294 : text := "           012111".
Definition d295 : text := "           012112".
Definition d296 : text := " 302042 11 007032".
Definition d297 : text := "           008021".
Definition d298 : text := "           004025".
Definition d299 : text := "           011001".
Definition d300 : text := "           011002".
Definition d301 : text := "           103002".
Definition d302 : text := "           011043".
Definition d303 : text := "           011041".
Definition d304 : text := " 302043  7 302038".
Definition d305 : text := "           302039".
Definition d306 : text := "           302040".
Definition d307 : text := "           302041".
Definition d308 : text := "           302042".
Definition d309 : text := " 302044  3 004024".
Definition d310 : text := "           002004".
Definition d311 : text := "           013033".
Definition d312 : text := " 302045  7 004024".
Definition d313 : text := "           014002".
Definition d314 : text := "           014004".
Definition d315 : text := "           014016".
Definition d316 : text := "           014028".
Definition d317 : text := "           014029".
Definition d318 : text := "           014030".
Definition d319 : text := " 302046  3 004024".
Definition d320 : text := "           012049".
Definition d321 : text := " 302047  3 102003".
Definition d322 : text := "           020054".
Definition d323 : text := " 302048  5 005021".
Definition d324 : text := "           007021".
Definition d325 : text := "           005021".
Definition d326 : text := " 302049  7 008002".
Definition d327 : text := " 302050 31 008041".
Definition d328 : text := "           007005".
Definition d329 : text := "           006021".
Definition d330 : text := "           201131".
Definition d331 : text := "           002115".
Definition d332 : text := "           010004".
Definition d333 : text := "           012102".
Definition d334 : text := "           101003".
Definition d335 : text := " 302051 12 010004".
Definition d336 : text := "           012051".
Definition d337 : text := "           012016".
Definition d338 : text := "           012017".
Definition d339 : text := "           013004".
Definition d340 : text := "           102004".
Definition d341 : text := "           008051".
Definition d342 : text := "           008020".
Definition d343 : text := " 302052  7 007032".
Definition d344 : text := "           007033".
Definition d345 : text := "           002039".
Definition d346 : text := " 302053  3 007032".
Definition d347 : text := " 302054  9 302052".
Definition d348 : text := "           302053".
Definition d349 : text := " 302055  8 020031".
Definition d350 : text := "           020032".
Definition d351 : text := "           020033".
Definition d352 : text := "           020034".
Definition d353 : text := "           020035".
Definition d354 : text := "           020036".
Definition d355 : text := "           020037".
Definition d356 : text := "           020038".
Definition d357 : text := " 302056  2 002038".
Definition d358 : text := "           022043".
Definition d359 : text := " 302057  3 302056".
Definition d360 : text := "           302021".
Definition d361 : text := "           302024".
Definition d362 : text := " 302058  8 007032".
Definition d363 : text := " 302059 12 007032".
Definition d364 : text := " 302060  4 302038".
Definition d365 : text := "           302058".
Definition d366 : text := "           302059".
Definition d367 : text := " 302062 24 302001".
Definition d368 : text := "           302052".
Definition d369 : text := "           031000".
Definition d370 : text := "           302055".
Definition d371 : text := "           302056".
Definition d372 : text := " 302063  8 302038".
Definition d373 : text := " 302066 16 020023".
Definition d374 : text := "           020024".
Definition d375 : text := "           020027".
Definition d376 : text := "           020023".
Definition d377 : text := "           020025".
Definition d378 : text := "           020026".
Definition d379 : text := "           020040".
Definition d380 : text := "           020066".
Definition d381 : text := "           020021".
Definition d382 : text := "           020067".
Definition d383 : text := " 302069  4 007032".
Definition d384 : text := "           033041".
Definition d385 : text := " 302070  8 007032".
Definition d386 : text := "           011016".
Definition d387 : text := "           011017".
Definition d388 : text := " 302071 14 007032".
Definition d389 : text := " 302072  5 007032".
Definition d390 : text := " 302073  7 020010".
Definition d391 : text := "           105004".
Definition d392 : text := " 302074  4 020003".
Definition d393 : text := " 302075  5 008021".
Definition d394 : text := "           013055".
Definition d395 : text := "           013058".
Definition d396 : text := " 302076  7 020021".
Definition d397 : text := "           020022".
Definition d398 : text := "           026020".
Definition d399 : text := " 302077  8 007032".
Definition d400 : text := " 302078  4 002176".
Definition d401 : text := "           020062".
Definition d402 : text := "           002177".
Definition d403 : text := " 302079  5 007032".
Definition d404 : text := "           002175".
Definition d405 : text := "           002178".
Definition d406 : text := " 302080  3 002185".
Definition d407 : text := " 302081  2 004025".
Definition d408 : text := " 302082  7 004025".
Definition d409 : text := " 302083  8 004025".
Definition d410 : text := "           008023".
Definition d411 : text := " 302205  5 201131".
Definition d412 : text := " 302206  9 302205".
Definition d413 : text := "           201130".
Definition d414 : text := "           022001".
Definition d415 : text := " 302207  5 022193".
Definition d416 : text := "           022194".
Definition d417 : text := "           022195".
Definition d418 : text := "           022196".
Definition d419 : text := "           022197".
Definition d420 : text := " 302250  5 102000".
Definition d421 : text := "           020193".
Definition d422 : text := "           020194".
Definition d423 : text := " 303001  3 007003".
Definition d424 : text := " 303002  3 007004".
Definition d425 : text := " 303003  4 007004".
Definition d426 : text := "           012001".
Definition d427 : text := "           012003".
Definition d428 : text := " 303004  6 007004".
Definition d429 : text := " 303011  4 007003".
Definition d430 : text := "           008001".
Definition d431 : text := " 303012  4 007004".
Definition d432 : text := " 303013  7 007004".
Definition d433 : text := " 303014  7 007004".
Definition d434 : text := " 303021  4 007004".
Definition d435 : text := "           204007".
Definition d436 : text := "           031021".
Definition d437 : text := " 303022  3 303021".
Definition d438 : text := "           204000".
Definition d439 : text := " 303023  3 303021".
Definition d440 : text := " 303024  3 303021".
Definition d441 : text := "           013016".
Definition d442 : text := " 303025  5 002025".
Definition d443 : text := "           012063".
Definition d444 : text := " 303026  6 007004".
Definition d445 : text := "           008003".
Definition d446 : text := " 303027  5 007004".
Definition d447 : text := " 303031  6 007004".
Definition d448 : text := "           007022".
Definition d449 : text := "           008012".
Definition d450 : text := "           012061".
Definition d451 : text := " 303032  2 020011".
Definition d452 : text := "           020016".
Definition d453 : text := " 303033  2 020010".
Definition d454 : text := " 303040 18 008041".
Definition d455 : text := "           004026".
Definition d456 : text := "           025069".
Definition d457 : text := "           008040".
Definition d458 : text := "           035035".
Definition d459 : text := " 303041  8 002152".
Definition d460 : text := "           002153".
Definition d461 : text := "           002154".
Definition d462 : text := "           012071".
Definition d463 : text := " 303050  7 004086".
Definition d464 : text := "           008042".
Definition d465 : text := "           005015".
Definition d466 : text := "           006015".
Definition d467 : text := " 303051  7 004086".
Definition d468 : text := "           011061".
Definition d469 : text := "           011062".
Definition d470 : text := " 303052  7 004086".
Definition d471 : text := "           007009".
Definition d472 : text := " 303053  7 004086".
Definition d473 : text := " 303054 10 004086".
Definition d474 : text := " 303249  7 002252".
Definition d475 : text := "           104000".
Definition d476 : text := "           002199".
Definition d477 : text := " 303250  8 002252".
Definition d478 : text := "           002197".
Definition d479 : text := "           002198".
Definition d480 : text := "           012193".
Definition d481 : text := " 303251  8 002252".
Definition d482 : text := "           105000".
Definition d483 : text := "           002254".
Definition d484 : text := "           002251".
Definition d485 : text := " 303252  8 002252".
Definition d486 : text := "           012194".
Definition d487 : text := " 304001  5 008003".
Definition d488 : text := " 304002  4 008003".
Definition d489 : text := " 304003  2 008003".
Definition d490 : text := " 304004  4 008003".
Definition d491 : text := "           020010".
Definition d492 : text := " 304005  4 002024".
Definition d493 : text := " 304006  3 014001".
Definition d494 : text := "           014001".
Definition d495 : text := "           014003".
Definition d496 : text := " 304011 27 002163".
Definition d497 : text := "           002164".
Definition d498 : text := "           007024".
Definition d499 : text := "           002057".
Definition d500 : text := "           004001".
Definition d501 : text := "           110004".
Definition d502 : text := "           103010".
Definition d503 : text := "           002163".
Definition d504 : text := " 304030  3 027031".
Definition d505 : text := "           028031".
Definition d506 : text := "           010031".
Definition d507 : text := " 304031  3 001041".
Definition d508 : text := "           001042".
Definition d509 : text := "           001043".
Definition d510 : text := " 304032  5 002153".
Definition d511 : text := "           020081".
Definition d512 : text := "           020082".
Definition d513 : text := " 304033  8 002152".
Definition d514 : text := "           002166".
Definition d515 : text := "           002167".
Definition d516 : text := "           012075".
Definition d517 : text := "           012076".
Definition d518 : text := " 304034  9 102004".
Definition d519 : text := "           027001".
Definition d520 : text := "           028001".
Definition d521 : text := "           005043".
Definition d522 : text := "           033003".
Definition d523 : text := "           010040".
Definition d524 : text := " 304228  3 005217".
Definition d525 : text := "           006217".
Definition d526 : text := "           007217".
Definition d527 : text := " 304229  3 001208".
Definition d528 : text := "           001209".
Definition d529 : text := "           001210".
Definition d530 : text := " 304250 27 002231".
Definition d531 : text := "           002232".
Definition d532 : text := "           002231".
Definition d533 : text := " 305003  5 301012".
Definition d534 : text := "           004065".
Definition d535 : text := "           305001".
Definition d536 : text := " 305006  6 013072".
Definition d537 : text := "           013082".
Definition d538 : text := "           013019".
Definition d539 : text := "           013073".
Definition d540 : text := "           013060".
Definition d541 : text := " 305007  6 301029".
Definition d542 : text := "           305006".
Definition d543 : text := " 305008  2 305006".
Definition d544 : text := "           012030".
Definition d545 : text := " 305009  6 301029".
Definition d546 : text := "           305008".
Definition d547 : text := " 305011  6 301029".
Definition d548 : text := "           305010".
Definition d549 : text := " 305018  8 301029".
Definition d550 : text := "           103000".
Definition d551 : text := "           305016".
Definition d552 : text := "           305017".
Definition d553 : text := " 306001  5 002032".
Definition d554 : text := "           102000".
Definition d555 : text := "           007062".
Definition d556 : text := "           022042".
Definition d557 : text := " 306002  3 002031".
Definition d558 : text := "           022004".
Definition d559 : text := "           022031".
Definition d560 : text := " 306003  4 002002".
Definition d561 : text := "           011011".
Definition d562 : text := " 306004  7 002032".
Definition d563 : text := "           002033".
Definition d564 : text := "           022062".
Definition d565 : text := " 306005  6 002031".
Definition d566 : text := " 306006  3 306003".
Definition d567 : text := "           306002".
Definition d568 : text := "           022063".
Definition d569 : text := " 306007  6 001012".
Definition d570 : text := "           306008".
Definition d571 : text := "           027003".
Definition d572 : text := "           028003".
Definition d573 : text := " 306008  3 002034".
Definition d574 : text := "           002035".
Definition d575 : text := "           002036".
Definition d576 : text := " 306019  8 001075".
Definition d577 : text := "           022120".
Definition d578 : text := "           022121".
Definition d579 : text := "           004015".
Definition d580 : text := " 306020  4 306024".
Definition d581 : text := "           102006".
Definition d582 : text := "           022038".
Definition d583 : text := "           022039".
Definition d584 : text := " 306021  7 001075".
Definition d585 : text := "           022122".
Definition d586 : text := "           022123".
Definition d587 : text := "           303002".
Definition d588 : text := " 306022  5 001075".
Definition d589 : text := " 306023  8 001015".
Definition d590 : text := " 306024  8 001075".
Definition d591 : text := " 306025  4 306019".
Definition d592 : text := " 307001  2 301031".
Definition d593 : text := "           302011".
Definition d594 : text := " 307002  2 301032".
Definition d595 : text := " 307003  4 307001".
Definition d596 : text := " 307004  4 307002".
Definition d597 : text := " 307005  3 307001".
Definition d598 : text := "           101004".
Definition d599 : text := " 307006  3 307002".
Definition d600 : text := " 307007  2 301031".
Definition d601 : text := "           302012".
Definition d602 : text := " 307008  2 301032".
Definition d603 : text := " 307009  2 301031".
Definition d604 : text := "           302013".
Definition d605 : text := " 307011 16 001063".
Definition d606 : text := "           007006".
Definition d607 : text := "           010052".
Definition d608 : text := "           020009".
Definition d609 : text := " 307012  5 103000".
Definition d610 : text := " 307013  8 106000".
Definition d611 : text := "           001064".
Definition d612 : text := "           008014".
Definition d613 : text := "           020061".
Definition d614 : text := "           020018".
Definition d615 : text := " 307014  3 101000".
Definition d616 : text := "           020019".
Definition d617 : text := " 307015  4 101000".
Definition d618 : text := "           020002".
Definition d619 : text := " 307016  3 101000".
Definition d620 : text := "           020020".
Definition d621 : text := " 307017  3 101000".
Definition d622 : text := "           011070".
Definition d623 : text := " 307018 16 008016".
Definition d624 : text := "           008017".
Definition d625 : text := "           307014".
Definition d626 : text := " 307020  3 307011".
Definition d627 : text := "           307016".
Definition d628 : text := " 307021  9 307011".
Definition d629 : text := "           307012".
Definition d630 : text := "           307013".
Definition d631 : text := "           307015".
Definition d632 : text := "           307017".
Definition d633 : text := "           307018".
Definition d634 : text := " 307022 31 001015".
Definition d635 : text := "           033038".
Definition d636 : text := "           008022".
Definition d637 : text := "           106025".
Definition d638 : text := "           001050".
Definition d639 : text := "           015031".
Definition d640 : text := "           015032".
Definition d641 : text := "           008060".
Definition d642 : text := "           015033".
Definition d643 : text := "           015034".
Definition d644 : text := "           015035".
Definition d645 : text := "           015011".
Definition d646 : text := " 307030  2 015001".
Definition d647 : text := "           015002".
Definition d648 : text := " 307031  7 008022".
Definition d649 : text := "           015001".
Definition d650 : text := " 307041  7 301001".
Definition d651 : text := "           301070".
Definition d652 : text := "           307030".
Definition d653 : text := " 307042  9 301001".
Definition d654 : text := "           307031".
Definition d655 : text := " 307043  7 301001".
Definition d656 : text := "           301074".
Definition d657 : text := " 307045 25 001063".
Definition d658 : text := "           008079".
Definition d659 : text := "           008054".
Definition d660 : text := "           011083".
Definition d661 : text := "           011084".
Definition d662 : text := "           011085".
Definition d663 : text := "           011086".
Definition d664 : text := "           012023".
Definition d665 : text := "           012024".
Definition d666 : text := " 307046  5 020060 Metar/speci visibility".
Definition d667 : text := "           020059".
Definition d668 : text := " 307047  9 105000 Metar/speci clouds".
Definition d669 : text := "           020092".
Definition d670 : text := "           020091".
Definition d671 : text := " 307048 25 008016".
Definition d672 : text := "           112000".
Definition d673 : text := "           020060".
Definition d674 : text := "           307047".
Definition d675 : text := " 307049  4 102000".
Definition d676 : text := " 307050 14 101000".
Definition d677 : text := "           020085".
Definition d678 : text := "           020086".
Definition d679 : text := "           020087".
Definition d680 : text := "           020088".
Definition d681 : text := "           020089".
Definition d682 : text := " 307059 12 307045 Full METAR/SPECI".
Definition d683 : text := "           307046".
Definition d684 : text := "           307049".
Definition d685 : text := "           307050".
Definition d686 : text := "           307048 Trend forecast".
Definition d687 : text := " 307052 10 001063".
Definition d688 : text := "           008039".
Definition d689 : text := "           301011 start of forecast".
Definition d690 : text := "           301011 end of forecast".
Definition d691 : text := " 307053 16 007032".
Definition d692 : text := " 307054 14 007032".
Definition d693 : text := " 307055  7 033045".
Definition d694 : text := "           008016".
Definition d695 : text := "           307053".
Definition d696 : text := " 307056  6 307052 Aerodrome forecast".
Definition d697 : text := "           307054".
Definition d698 : text := "           307055".
Definition d699 : text := " 307063  2 007061".
Definition d700 : text := "           012130".
Definition d701 : text := " 307080 13 301090 BUFR template for synoptic reports".
Definition d702 : text := "           302031".
Definition d703 : text := "           302035".
Definition d704 : text := "           302036".
Definition d705 : text := "           302047".
Definition d706 : text := "           302048".
Definition d707 : text := "           302037".
Definition d708 : text := "           302043".
Definition d709 : text := "           302044".
Definition d710 : text := "           302045".
Definition d711 : text := "           302046".
Definition d712 : text := " 307081 24 301090 BUFR template for synoptic reports RA I".
Definition d713 : text := "           012122".
Definition d714 : text := "           013056".
Definition d715 : text := "           013057".
Definition d716 : text := "           020101".
Definition d717 : text := "           020102".
Definition d718 : text := "           020103".
Definition d719 : text := "           020104".
Definition d720 : text := "           020105".
Definition d721 : text := "           020106".
Definition d722 : text := "           020107".
Definition d723 : text := "           020108".
Definition d724 : text := " 307082 15 301090 BUFR template for synoptic reports RA II".
Definition d725 : text := "           012121".
Definition d726 : text := " 307083 14 301090 BUFR template for synoptic reports RA III".
Definition d727 : text := " 307084 17 301090 BUFR template for synoptic reports RA IV".
Definition d728 : text := "           020055".
Definition d729 : text := "           205001".
Definition d730 : text := " 307086 11 301090 BUFR template for synoptic reports RA VI".
Definition d731 : text := "           302066".
Definition d732 : text := " 307090 13 301092 BUFR template for synoptic reports from mobile land stations".
Definition d733 : text := " 308001  3 301033".
Definition d734 : text := " 308002  3 301034".
Definition d735 : text := " 308003  3 301035".
Definition d736 : text := " 308004  3 301036".
Definition d737 : text := " 308005  2 308004".
Definition d738 : text := " 308006  8 010004".
Definition d739 : text := " 308007  4 301055".
Definition d740 : text := " 308008  3 301093".
Definition d741 : text := "           302062".
Definition d742 : text := "           302063 ".
Definition d743 : text := " 308009  7 301093".
Definition d744 : text := "           302001".
Definition d745 : text := "           302054".
Definition d746 : text := "           302057".
Definition d747 : text := "           302060".
Definition d748 : text := " 308010 16 001011 TRACKOB template".
Definition d749 : text := "           113000".
Definition d750 : text := "           004080".
Definition d751 : text := "           022049".
Definition d752 : text := "           022059".
Definition d753 : text := "           022005".
Definition d754 : text := "           002042".
Definition d755 : text := "           022032".
Definition d756 : text := " 309001  4 301037".
Definition d757 : text := "           303011".
Definition d758 : text := " 309002  4 301038".
Definition d759 : text := " 309003  4 301037".
Definition d760 : text := "           303012".
Definition d761 : text := " 309004  4 301038".
Definition d762 : text := " 309005  5 301037".
Definition d763 : text := "           303013".
Definition d764 : text := " 309006  5 301038".
Definition d765 : text := " 309007  5 301037".
Definition d766 : text := "           303014".
Definition d767 : text := " 309008  5 301038".
Definition d768 : text := " 309011  4 301039".
Definition d769 : text := " 309012  4 301039".
Definition d770 : text := " 309013  5 301039".
Definition d771 : text := " 309014  5 301039".
Definition d772 : text := " 309015  4 301040".
Definition d773 : text := " 309016  4 301040".
Definition d774 : text := " 309017  5 301040".
Definition d775 : text := " 309018  5 301040".
Definition d776 : text := " 309019  5 301031".
Definition d777 : text := " 309020  8 301031".
Definition d778 : text := "           007003".
Definition d779 : text := "           011003".
Definition d780 : text := "           011004".
Definition d781 : text := "           011005".
Definition d782 : text := " 309030  8 015004".
Definition d783 : text := "           015005".
Definition d784 : text := "           008006".
Definition d785 : text := "           015003".
Definition d786 : text := " 309031  8 015004".
Definition d787 : text := " 309040  3 301075".
Definition d788 : text := "           301076".
Definition d789 : text := "           309030".
Definition d790 : text := " 309042  4 307042".
Definition d791 : text := "           301075".
Definition d792 : text := " 309050  9 301110".
Definition d793 : text := "           301113".
Definition d794 : text := "           301114".
Definition d795 : text := "           031002".
Definition d796 : text := "           303050".
Definition d797 : text := "           303051".
Definition d798 : text := " 309051  9 301110".
Definition d799 : text := "           303052".
Definition d800 : text := "           303053".
Definition d801 : text := " 309052 11 301111".
Definition d802 : text := "           302049".
Definition d803 : text := "           303054".
Definition d804 : text := " 309053  9 301112".
Definition d805 : text := " 309060  4 301123".
Definition d806 : text := "           302050".
Definition d807 : text := "           303040".
Definition d808 : text := " 309061 21 301120".
Definition d809 : text := "           033007".
Definition d810 : text := "           033035".
Definition d811 : text := "           033015".
Definition d812 : text := "           013009".
Definition d813 : text := " 309062 19 301120".
Definition d814 : text := "           005001".
Definition d815 : text := " 309063 19 301120".
Definition d816 : text := " 309064 26 301120".
Definition d817 : text := "           104002".
Definition d818 : text := " 309065 18 301120".
Definition d819 : text := " 309066 18 301120".
Definition d820 : text := "           010007".
Definition d821 : text := " 309194  5 301194".
Definition d822 : text := " 309195  5 301195".
Definition d823 : text := " 309196  5 301196".
Definition d824 : text := " 309198  5 301198".
Definition d825 : text := " 310001  5 301042".
Definition d826 : text := "           303031".
Definition d827 : text := "           303032".
Definition d828 : text := "           101026".
Definition d829 : text := "           303025".
Definition d830 : text := " 310002  5 301042".
Definition d831 : text := "           101009".
Definition d832 : text := "           303023".
Definition d833 : text := " 310003  5 301042".
Definition d834 : text := "           101006".
Definition d835 : text := " 310004  5 301042".
Definition d836 : text := "           303024".
Definition d837 : text := " 310005  6 301042".
Definition d838 : text := "           303033".
Definition d839 : text := " 310006  6 301042".
Definition d840 : text := " 310007  6 301042".
Definition d841 : text := " 310008  8 310011".
Definition d842 : text := "           101019".
Definition d843 : text := "           310012".
Definition d844 : text := "           002150".
Definition d845 : text := "           025079".
Definition d846 : text := "           025080".
Definition d847 : text := "           033032".
Definition d848 : text := "           014045".
Definition d849 : text := " 310009  3 310011".
Definition d850 : text := "           101015".
Definition d851 : text := " 310010  3 310011".
Definition d852 : text := "           101005".
Definition d853 : text := " 310011 45 008070".
Definition d854 : text := "           008070".
Definition d855 : text := "           025075".
Definition d856 : text := "           201133".
Definition d857 : text := "           005041".
Definition d858 : text := "           025070".
Definition d859 : text := "           033030".
Definition d860 : text := "           033031".
Definition d861 : text := "           007025".
Definition d862 : text := "           005022".
Definition d863 : text := "           033033".
Definition d864 : text := "           002151".
Definition d865 : text := "           012064".
Definition d866 : text := " 310012 10 002150".
Definition d867 : text := "           025076".
Definition d868 : text := "           025077".
Definition d869 : text := "           025078".
Definition d870 : text := "           201132".
Definition d871 : text := " 310013 62 001007".
Definition d872 : text := "           025085".
Definition d873 : text := "           008072".
Definition d874 : text := "           014027".
Definition d875 : text := " 310014  3 301072".
Definition d876 : text := "           303041".
Definition d877 : text := "           304011".
Definition d878 : text := " 310015 13 301072".
Definition d879 : text := "           010002".
Definition d880 : text := "           304032".
Definition d881 : text := "           002152".
Definition d882 : text := "           304033".
Definition d883 : text := " 310016 13 301072".
Definition d884 : text := "           101012".
Definition d885 : text := " 310019 57 001007".
Definition d886 : text := "           008029".
Definition d887 : text := "           008075".
Definition d888 : text := "           033066".
Definition d889 : text := "           015030".
Definition d890 : text := "           021001".
Definition d891 : text := "           033042".
Definition d892 : text := "           111021".
Definition d893 : text := "           008026".
Definition d894 : text := "           101020".
Definition d895 : text := "           025143".
Definition d896 : text := "           008043".
Definition d897 : text := "           109015".
Definition d898 : text := "           008090".
Definition d899 : text := "           202132".
Definition d900 : text := "           015008".
Definition d901 : text := "           033067".
Definition d902 : text := "           106008".
Definition d903 : text := "           201007".
Definition d904 : text := "           002071".
Definition d905 : text := " 310020  6 310022".
Definition d906 : text := "           304034".
Definition d907 : text := "           310021".
Definition d908 : text := " 310021 10 108000".
Definition d909 : text := "           015020".
Definition d910 : text := " 310022  4 001007".
Definition d911 : text := "           002172".
Definition d912 : text := " 310023 17 301072".
Definition d913 : text := "           030021".
Definition d914 : text := "           030022".
Definition d915 : text := "           105002".
Definition d916 : text := " 310024 17 301072".
Definition d917 : text := " 310025 61 001007".
Definition d918 : text := "           202131 ".
Definition d919 : text := "           201129".
Definition d920 : text := "           005002".
Definition d921 : text := "           005006".
Definition d922 : text := "           013040".
Definition d923 : text := "           020029".
Definition d924 : text := "           104024".
Definition d925 : text := "           005042".
Definition d926 : text := "           012163".
Definition d927 : text := "           021083".
Definition d928 : text := "           021084".
Definition d929 : text := "           115003".
Definition d930 : text := "           201142".
Definition d931 : text := "           012070".
Definition d932 : text := "           025054".
Definition d933 : text := "           025055".
Definition d934 : text := "           008007".
Definition d935 : text := "           104028".
Definition d936 : text := " 310026 82 310022".
Definition d937 : text := "           033039".
Definition d938 : text := "           004016".
Definition d939 : text := "           010035".
Definition d940 : text := "           010036".
Definition d941 : text := "           108000".
Definition d942 : text := "           007040".
Definition d943 : text := "           015037".
Definition d944 : text := "           201125".
Definition d945 : text := "           015036".
Definition d946 : text := "           201123".
Definition d947 : text := "           116000".
Definition d948 : text := "           013001".
Definition d949 : text := "           201120".
Definition d950 : text := "           201122".
Definition d951 : text := " 310029 12 110000".
Definition d952 : text := "           013098".
Definition d953 : text := " 310030  6 310022".
Definition d954 : text := "           310029".
Definition d955 : text := " 310050 14 310051".
Definition d956 : text := "           310052".
Definition d957 : text := "           310053".
Definition d958 : text := "           310054".
Definition d959 : text := " 310051 16 001007".
Definition d960 : text := "           102009".
Definition d961 : text := " 310052 12 002019".
Definition d962 : text := " 310053  6 201134".
Definition d963 : text := " 310054 13 201134".
Definition d964 : text := " 310055  8 310051".
Definition d965 : text := "           102020".
Definition d966 : text := "           025052".
Definition d967 : text := "           025050".
Definition d968 : text := " 310193  5 301250".
Definition d969 : text := "           303250".
Definition d970 : text := "           302250".
Definition d971 : text := "           303249".
Definition d972 : text := "           303251".
Definition d973 : text := " 310194  5 301250".
Definition d974 : text := "           303252".
Definition d975 : text := " 310195  3 301250".
Definition d976 : text := "           304250".
Definition d977 : text := " 310196  3 301250".
Definition d978 : text := " 310226 39 310022".
Definition d979 : text := "           107000".
Definition d980 : text := " 311001  9 301051".
Definition d981 : text := "           007002".
Definition d982 : text := "           011031".
Definition d983 : text := "           011032".
Definition d984 : text := "           011033".
Definition d985 : text := "           020041".
Definition d986 : text := " 311002  4 301065".
Definition d987 : text := "           301066".
Definition d988 : text := "           311003".
Definition d989 : text := "           311004".
Definition d990 : text := " 311003  5 010070".
Definition d991 : text := "           013002".
Definition d992 : text := " 311004 18 101000".
Definition d993 : text := "           011034".
Definition d994 : text := "           011035".
Definition d995 : text := "           011075".
Definition d996 : text := "           011076".
Definition d997 : text := "           033025".
Definition d998 : text := "           033026".
Definition d999 : text := " 311005 13 001008".
Definition d1000 : text := "           001023".
Definition d1001 : text := "           007010".
Definition d1002 : text := "           008009".
Definition d1003 : text := "           011036".
Definition d1004 : text := " 311006  6 007010".
Definition d1005 : text := " 311007  7 007010".
Definition d1006 : text := " 311008  8 001008".
Definition d1007 : text := "           311006".
Definition d1008 : text := " 311009  8 001008".
Definition d1009 : text := "           311007".
Definition d1010 : text := " 311193 16 301197".
Definition d1011 : text := " 312001  2 301043".
Definition d1012 : text := "           304001".
Definition d1013 : text := " 312002  2 301043".
Definition d1014 : text := "           304002".
Definition d1015 : text := " 312003  2 301042".
Definition d1016 : text := "           304003".
Definition d1017 : text := " 312004  2 301042".
Definition d1018 : text := "           304004".
Definition d1019 : text := " 312005  2 301042".
Definition d1020 : text := " 312006  2 301044".
Definition d1021 : text := "           304005".
Definition d1022 : text := " 312007  2 301042".
Definition d1023 : text := "           304006".
Definition d1024 : text := " 312010  6 001007".
Definition d1025 : text := "           004043".
Definition d1026 : text := " 312011  9 202131".
Definition d1027 : text := "           201149".
Definition d1028 : text := "           005053".
Definition d1029 : text := " 312012  6 202129".
Definition d1030 : text := " 312013  6 005042".
Definition d1031 : text := " 312014  8 312010".
Definition d1032 : text := "           312011".
Definition d1033 : text := "           105056".
Definition d1034 : text := "           005052".
Definition d1035 : text := "           312012".
Definition d1036 : text := "           312013".
Definition d1037 : text := " 312015 10 109011".
Definition d1038 : text := " 312016  3 312010".
Definition d1039 : text := "           312015".
Definition d1040 : text := " 312017 10 109008".
Definition d1041 : text := " 312018  3 312010".
Definition d1042 : text := "           312017".
Definition d1043 : text := " 312019 13 301047".
Definition d1044 : text := "           301048".
Definition d1045 : text := "           015015".
Definition d1046 : text := "           029002".
Definition d1047 : text := "           021076".
Definition d1048 : text := "           106012".
Definition d1049 : text := "           006030".
Definition d1050 : text := "           102012".
Definition d1051 : text := "           005030".
Definition d1052 : text := "           021075".
Definition d1053 : text := "           021066".
Definition d1054 : text := " 312020 11 301047".
Definition d1055 : text := "           104012".
Definition d1056 : text := " 312021  6 301047".
Definition d1057 : text := "           301049".
Definition d1058 : text := "           021067".
Definition d1059 : text := " 312022 15 301047".
Definition d1060 : text := "           011050".
Definition d1061 : text := "           022070".
Definition d1062 : text := "           022026".
Definition d1063 : text := "           312041".
Definition d1064 : text := "           010050".
Definition d1065 : text := "           021068".
Definition d1066 : text := "           021071".
Definition d1067 : text := "           021072".
Definition d1068 : text := "           021073".
Definition d1069 : text := "           312042".
Definition d1070 : text := " 312023  7 301047".
Definition d1071 : text := "           103003".
Definition d1072 : text := "           022050".
Definition d1073 : text := "           021069".
Definition d1074 : text := "           021085".
Definition d1075 : text := " 312024 11 312020".
Definition d1076 : text := "           025014".
Definition d1077 : text := "           022101".
Definition d1078 : text := "           022097".
Definition d1079 : text := "           022098".
Definition d1080 : text := "           022099".
Definition d1081 : text := "           022100".
Definition d1082 : text := " 312025 11 312019".
Definition d1083 : text := " 312026 19 301046".
Definition d1084 : text := "           312031".
Definition d1085 : text := "           312030".
Definition d1086 : text := "           021110".
Definition d1087 : text := "           321027".
Definition d1088 : text := "           021111".
Definition d1089 : text := "           021112".
Definition d1090 : text := "           021113".
Definition d1091 : text := " 312027  9 301047".
Definition d1092 : text := "           105009".
Definition d1093 : text := "           021070".
Definition d1094 : text := " 312028 26 301046".
Definition d1095 : text := "           008025".
Definition d1096 : text := "           201136".
Definition d1097 : text := "           312032".
Definition d1098 : text := "           312033".
Definition d1099 : text := "           321028".
Definition d1100 : text := " 312030 13 201130".
Definition d1101 : text := "           011052".
Definition d1102 : text := "           011053".
Definition d1103 : text := "           021104".
Definition d1104 : text := " 312031  8 005034".
Definition d1105 : text := "           006034".
Definition d1106 : text := "           021109".
Definition d1107 : text := "           011081".
Definition d1108 : text := "           011082".
Definition d1109 : text := "           021101".
Definition d1110 : text := "           021102".
Definition d1111 : text := "           021103".
Definition d1112 : text := " 312032  4 021120".
Definition d1113 : text := "           021121".
Definition d1114 : text := "           021122".
Definition d1115 : text := " 312033  4 002104".
Definition d1116 : text := "           012065".
Definition d1117 : text := " 312041  5 201141".
Definition d1118 : text := " 312042  6 021077".
Definition d1119 : text := "           021078".
Definition d1120 : text := "           021079".
Definition d1121 : text := "           021080".
Definition d1122 : text := "           021081".
Definition d1123 : text := "           021082".
Definition d1124 : text := " 312045 21 001007".
Definition d1125 : text := "           001096".
Definition d1126 : text := "           012180".
Definition d1127 : text := "           012181".
Definition d1128 : text := "           012182".
Definition d1129 : text := "           012183".
Definition d1130 : text := "           012184".
Definition d1131 : text := "           012185".
Definition d1132 : text := "           002174".
Definition d1133 : text := "           021086".
Definition d1134 : text := "           012186".
Definition d1135 : text := "           021087".
Definition d1136 : text := "           012187".
Definition d1137 : text := "           033043".
Definition d1138 : text := " 312050 23 001007".
Definition d1139 : text := "           010080".
Definition d1140 : text := "           027080".
Definition d1141 : text := "           013093".
Definition d1142 : text := "           013095".
Definition d1143 : text := " 312051 48 001007".
Definition d1144 : text := "           010032".
Definition d1145 : text := "           010033".
Definition d1146 : text := "           010034".
Definition d1147 : text := "           025110".
Definition d1148 : text := "           025111".
Definition d1149 : text := "           025102".
Definition d1150 : text := "           002104".
Definition d1151 : text := "           025103".
Definition d1152 : text := "           025104".
Definition d1153 : text := "           025105".
Definition d1154 : text := "           025106".
Definition d1155 : text := "           025107".
Definition d1156 : text := "           025108".
Definition d1157 : text := "           021130".
Definition d1158 : text := "           021131".
Definition d1159 : text := "           021132".
Definition d1160 : text := "           021133".
Definition d1161 : text := "           021134".
Definition d1162 : text := "           107018".
Definition d1163 : text := "           105024".
Definition d1164 : text := "           021135".
Definition d1165 : text := "           021136".
Definition d1166 : text := "           033044".
Definition d1167 : text := " 312052 77 001007".
Definition d1168 : text := "           025120".
Definition d1169 : text := "           025121".
Definition d1170 : text := "           025124".
Definition d1171 : text := "           025125".
Definition d1172 : text := "           025122".
Definition d1173 : text := "           025123".
Definition d1174 : text := "           002119".
Definition d1175 : text := "           033047".
Definition d1176 : text := "           010081".
Definition d1177 : text := "           010082".
Definition d1178 : text := "           010083".
Definition d1179 : text := "           010084".
Definition d1180 : text := "           002116".
Definition d1181 : text := "           002117".
Definition d1182 : text := "           002118".
Definition d1183 : text := "           002156".
Definition d1184 : text := "           002157".
Definition d1185 : text := "           014055".
Definition d1186 : text := "           022150".
Definition d1187 : text := "           022151".
Definition d1188 : text := "           022152".
Definition d1189 : text := "           022153".
Definition d1190 : text := "           022154".
Definition d1191 : text := "           022155".
Definition d1192 : text := "           022156".
Definition d1193 : text := "           022157".
Definition d1194 : text := "           022158".
Definition d1195 : text := "           022159".
Definition d1196 : text := "           021137".
Definition d1197 : text := "           021138".
Definition d1198 : text := "           021139".
Definition d1199 : text := "           021140".
Definition d1200 : text := "           021141".
Definition d1201 : text := "           021142".
Definition d1202 : text := "           010085".
Definition d1203 : text := "           010086".
Definition d1204 : text := "           010087".
Definition d1205 : text := "           010088".
Definition d1206 : text := "           010089".
Definition d1207 : text := "           010090".
Definition d1208 : text := "           010091".
Definition d1209 : text := "           010092".
Definition d1210 : text := "           010093".
Definition d1211 : text := "           025126".
Definition d1212 : text := "           025127".
Definition d1213 : text := "           025128".
Definition d1214 : text := "           025129".
Definition d1215 : text := "           025130".
Definition d1216 : text := "           025131".
Definition d1217 : text := "           025132".
Definition d1218 : text := "           025133".
Definition d1219 : text := "           025134".
Definition d1220 : text := "           025135".
Definition d1221 : text := "           025136".
Definition d1222 : text := "           025137".
Definition d1223 : text := "           013096".
Definition d1224 : text := "           013097".
Definition d1225 : text := "           011095".
Definition d1226 : text := "           011096".
Definition d1227 : text := "           012188".
Definition d1228 : text := "           012189".
Definition d1229 : text := "           002158".
Definition d1230 : text := "           002159".
Definition d1231 : text := "           033052".
Definition d1232 : text := "           033053".
Definition d1233 : text := "           021143".
Definition d1234 : text := "           021144".
Definition d1235 : text := " 312053 54 001007".
Definition d1236 : text := "           022160".
Definition d1237 : text := "           025138".
Definition d1238 : text := "           033048".
Definition d1239 : text := "           033049".
Definition d1240 : text := "           106036".
Definition d1241 : text := "           022161".
Definition d1242 : text := " 312055  5 005033".
Definition d1243 : text := "           010095".
Definition d1244 : text := "           021157".
Definition d1245 : text := " 312056 11 025060".
Definition d1246 : text := "           020095".
Definition d1247 : text := "           020096".
Definition d1248 : text := "           021155".
Definition d1249 : text := " 312057 12 201130".
Definition d1250 : text := "           021156".
Definition d1251 : text := " 312058  8 301125".
Definition d1252 : text := "           312055".
Definition d1253 : text := "           021150".
Definition d1254 : text := "           321030".
Definition d1255 : text := " 312059  4 312056".
Definition d1256 : text := "           312057".
Definition d1257 : text := " 312060 20 025060".
Definition d1258 : text := "           025062".
Definition d1259 : text := "           040001".
Definition d1260 : text := "           040002".
Definition d1261 : text := "           021151".
Definition d1262 : text := "           021152".
Definition d1263 : text := "           021153".
Definition d1264 : text := "           021154".
Definition d1265 : text := "           040003".
Definition d1266 : text := "           040004".
Definition d1267 : text := "           040005".
Definition d1268 : text := "           040006".
Definition d1269 : text := "           040007".
Definition d1270 : text := "           020065".
Definition d1271 : text := "           040008".
Definition d1272 : text := "           040009".
Definition d1273 : text := "           040010".
Definition d1274 : text := " 312061  3 312058".
Definition d1275 : text := "           312060".
Definition d1276 : text := "           312059".
Definition d1277 : text := " 312200 10 301237".
Definition d1278 : text := "           301238".
Definition d1279 : text := "           021206".
Definition d1280 : text := "           006232".
Definition d1281 : text := "           005232".
Definition d1282 : text := "           021205".
Definition d1283 : text := "           021196".
Definition d1284 : text := " 312201  6 301237".
Definition d1285 : text := "           301239".
Definition d1286 : text := "           021197".
Definition d1287 : text := " 312202 13 301237".
Definition d1288 : text := "           301240".
Definition d1289 : text := "           022243".
Definition d1290 : text := "           301241".
Definition d1291 : text := "           021198".
Definition d1292 : text := "           021201".
Definition d1293 : text := "           021202".
Definition d1294 : text := "           021203".
Definition d1295 : text := "           301242".
Definition d1296 : text := " 312203  8 301237".
Definition d1297 : text := "           021204".
Definition d1298 : text := "           021199".
Definition d1299 : text := "           021214".
Definition d1300 : text := "           021215".
Definition d1301 : text := " 312204 12 312201".
Definition d1302 : text := "           021200".
Definition d1303 : text := "           021213".
Definition d1304 : text := "           055003".
Definition d1305 : text := " 312207  3 312202".
Definition d1306 : text := "           301202".
Definition d1307 : text := "           033191".
Definition d1308 : text := " 312208 17 301202".
Definition d1309 : text := "           302205".
Definition d1310 : text := "           001192".
Definition d1311 : text := " 312209 11 301202".
Definition d1312 : text := "           302206".
Definition d1313 : text := "           022192".
Definition d1314 : text := "           022191".
Definition d1315 : text := " 312210 13 312202".
Definition d1316 : text := "           015202".
Definition d1317 : text := "           304228".
Definition d1318 : text := "           304229".
Definition d1319 : text := " 312211 19 301046".
Definition d1320 : text := "           312212".
Definition d1321 : text := " 312212  2 301023".
Definition d1322 : text := " 313009  4 021001".
Definition d1323 : text := " 313010  4 021036".
Definition d1324 : text := "           021036".
Definition d1325 : text := " 313031  5 006002".
Definition d1326 : text := "           006012".
Definition d1327 : text := "           030001".
Definition d1328 : text := " 313032  5 005002".
Definition d1329 : text := "           005012".
Definition d1330 : text := "           313031".
Definition d1331 : text := " 313041 13 006002".
Definition d1332 : text := "           110000".
Definition d1333 : text := "           031012".
Definition d1334 : text := " 313042  5 005002".
Definition d1335 : text := "           313041".
Definition d1336 : text := " 313043 17 006002".
Definition d1337 : text := "           031011".
Definition d1338 : text := " 315001  5 001011".
Definition d1339 : text := "           306001".
Definition d1340 : text := " 315002  5 001011".
Definition d1341 : text := "           306004".
Definition d1342 : text := " 316001 10 301011".
Definition d1343 : text := "           001021".
Definition d1344 : text := "           002041".
Definition d1345 : text := "           019001".
Definition d1346 : text := "           019002".
Definition d1347 : text := "           019003".
Definition d1348 : text := "           019004".
Definition d1349 : text := " 316002 15 008021".
Definition d1350 : text := " 316003 12 110000".
Definition d1351 : text := "           008011".
Definition d1352 : text := " 316004 13 111000".
Definition d1353 : text := " 316005 10 108000".
Definition d1354 : text := "           008005".
Definition d1355 : text := "           001026".
Definition d1356 : text := " 316006 14 112000".
Definition d1357 : text := " 316007 12 110000".
Definition d1358 : text := "           019005".
Definition d1359 : text := "           019006".
Definition d1360 : text := " 316008 13 111000".
Definition d1361 : text := " 316009 13 111000".
Definition d1362 : text := " 316010  9 107000".
Definition d1363 : text := "           001022".
Definition d1364 : text := " 316011 19 117000".
Definition d1365 : text := "           020090".
Definition d1366 : text := " 316022 24 001032".
Definition d1367 : text := "           019010".
Definition d1368 : text := "           118000".
Definition d1369 : text := "           004014".
Definition d1370 : text := "           004075".
Definition d1371 : text := "           011040".
Definition d1372 : text := "           019008".
Definition d1373 : text := " 316050 16 301001".
Definition d1374 : text := "           002160".
Definition d1375 : text := "           019100".
Definition d1376 : text := "           019101".
Definition d1377 : text := "           019102".
Definition d1378 : text := "           019103".
Definition d1379 : text := "           019104".
Definition d1380 : text := "           019105".
Definition d1381 : text := " 316052 29 301005".
Definition d1382 : text := "           025150".
Definition d1383 : text := "           122000".
Definition d1384 : text := "           001027".
Definition d1385 : text := "           019150".
Definition d1386 : text := "           019106".
Definition d1387 : text := "           019107".
Definition d1388 : text := "           019108".
Definition d1389 : text := "           019109".
Definition d1390 : text := "           019110".
Definition d1391 : text := "           019111".
Definition d1392 : text := "           019112".
Definition d1393 : text := "           019113".
Definition d1394 : text := "           019114".
Definition d1395 : text := "           019115".
Definition d1396 : text := "           019116".
Definition d1397 : text := "           019117".
Definition d1398 : text := "           019118".
Definition d1399 : text := "           019119".
Definition d1400 : text := " 318001  2 301025".
Definition d1401 : text := "           024011".
Definition d1402 : text := " 318003  4 301026".
Definition d1403 : text := "           024005".
Definition d1404 : text := "           024004".
Definition d1405 : text := "           024021".
Definition d1406 : text := " 318004  6 301025".
Definition d1407 : text := "           004023".
Definition d1408 : text := "           024022".
Definition d1409 : text := " 321001  6 002101".
Definition d1410 : text := "           002114".
Definition d1411 : text := "           002105".
Definition d1412 : text := "           002106".
Definition d1413 : text := "           002107".
Definition d1414 : text := " 321003  4 021051".
Definition d1415 : text := "           021014".
Definition d1416 : text := "           021017".
Definition d1417 : text := "           021030".
Definition d1418 : text := " 321004  5 301031".
Definition d1419 : text := "           321003".
Definition d1420 : text := " 321005 12 025004".
Definition d1421 : text := "           002122".
Definition d1422 : text := "           002123".
Definition d1423 : text := "           002124".
Definition d1424 : text := "           002125".
Definition d1425 : text := "           002126".
Definition d1426 : text := "           002127".
Definition d1427 : text := "           002128".
Definition d1428 : text := "           002129".
Definition d1429 : text := "           002130".
Definition d1430 : text := "           002131".
Definition d1431 : text := " 321006  4 025001".
Definition d1432 : text := "           025002".
Definition d1433 : text := "           025003".
Definition d1434 : text := "           025005".
Definition d1435 : text := " 321007  8 025009".
Definition d1436 : text := "           025011".
Definition d1437 : text := "           025012".
Definition d1438 : text := "           025013".
Definition d1439 : text := "           025015".
Definition d1440 : text := "           025016".
Definition d1441 : text := "           025017".
Definition d1442 : text := " 321008  3 025006".
Definition d1443 : text := "           025007".
Definition d1444 : text := "           025008".
Definition d1445 : text := " 321009  2 025018".
Definition d1446 : text := "           025019".
Definition d1447 : text := " 321010 13 002101".
Definition d1448 : text := "           002102".
Definition d1449 : text := "           002103".
Definition d1450 : text := "           002108".
Definition d1451 : text := "           002109".
Definition d1452 : text := "           002110".
Definition d1453 : text := "           002132".
Definition d1454 : text := "           002133".
Definition d1455 : text := " 321011  3 030031".
Definition d1456 : text := "           030032".
Definition d1457 : text := " 321012  3 101000".
Definition d1458 : text := "           002135".
Definition d1459 : text := " 321021 15 002003".
Definition d1460 : text := "           002101".
Definition d1461 : text := "           025001".
Definition d1462 : text := " 321022 11 007007".
Definition d1463 : text := "           204001".
Definition d1464 : text := "           011006".
Definition d1465 : text := " 321023  9 007007".
Definition d1466 : text := "           021091".
Definition d1467 : text := " 321024  7 007007".
Definition d1468 : text := "           012007".
Definition d1469 : text := " 321025 17 007007".
Definition d1470 : text := "           021092".
Definition d1471 : text := "           025092".
Definition d1472 : text := " 321026 10 007007".
Definition d1473 : text := "           025091".
Definition d1474 : text := "           011071".
Definition d1475 : text := "           011072".
Definition d1476 : text := "           011073".
Definition d1477 : text := "           011074".
Definition d1478 : text := " 321027 18 021118".
Definition d1479 : text := "           021105".
Definition d1480 : text := "           021106".
Definition d1481 : text := "           021107".
Definition d1482 : text := "           021114".
Definition d1483 : text := "           021115".
Definition d1484 : text := "           021116".
Definition d1485 : text := "           008018".
Definition d1486 : text := "           021117".
Definition d1487 : text := " 321028 18 021118".
Definition d1488 : text := "           021123".
Definition d1489 : text := " 321030 18 008085".
Definition d1490 : text := "           002134".
Definition d1491 : text := "           021158".
Definition d1492 : text := "           021159".
Definition d1493 : text := "           021160".
Definition d1494 : text := "           021161".
Definition d1495 : text := "           021162".
Definition d1496 : text := "           021163".
Definition d1497 : text := "           021164".
Definition d1498 : text := "           021165".
Definition d1499 : text := "           021166".
Definition d1500 : text := " 340001 45 001007".
Definition d1501 : text := "           033060".
Definition d1502 : text := "           033061".
Definition d1503 : text := "           033062".
Definition d1504 : text := "           033063".
Definition d1505 : text := "           033064".
Definition d1506 : text := "           033065".
Definition d1507 : text := "           101010".
Definition d1508 : text := "           340002".
Definition d1509 : text := "           101087".
Definition d1510 : text := "           340003".
Definition d1511 : text := "           025051".
Definition d1512 : text := "           101007".
Definition d1513 : text := "           340004".
Definition d1514 : text := " 340002  3 025140".
Definition d1515 : text := "           025141".
Definition d1516 : text := "           025142".
Definition d1517 : text := " 340003  5 104100".
Definition d1518 : text := "           014046".
Definition d1519 : text := " 340004  9 005060".
Definition d1520 : text := "           005061".
Definition d1521 : text := "           105006".
Definition d1522 : text := "           014047".
Definition d1523 : text := "           014048".
Definition d1524 : text := " 301035  7 001005".
Definition d1525 : text := " 302056  4 002038".
Definition d1526 : text := "           007063".
Definition d1527 : text := " 301005  2 001035".
Definition d1528 : text := " 301014  3 102002  ".
Definition d1529 : text := " 301027  5 008007".
Definition d1530 : text := "           301028".
Definition d1531 : text := " 301028  8 008040".
Definition d1532 : text := "           019007".
Definition d1533 : text := " 301034  5 001005".
Definition d1534 : text := " 301070  3 002143".
Definition d1535 : text := "           002142".
Definition d1536 : text := "           002144".
Definition d1537 : text := " 301074  4 002143".
Definition d1538 : text := "           002145".
Definition d1539 : text := "           002146".
Definition d1540 : text := " 301075  6 301001".
Definition d1541 : text := " 301076  3 002011".
Definition d1542 : text := "           002143".
Definition d1543 : text := " 301089  2 001101".
Definition d1544 : text := "           001102".
Definition d1545 : text := " 302084 41 302031".
Definition d1546 : text := "           302072".
Definition d1547 : text := "           307063".
Definition d1548 : text := "           007061".
Definition d1549 : text := "           302069".
Definition d1550 : text := "           020031".
Definition d1551 : text := "           002038".
Definition d1552 : text := "           302078".
Definition d1553 : text := " 302085 63 105000".
Definition d1554 : text := "           302175".
Definition d1555 : text := "           302076".
Definition d1556 : text := "           013059".
Definition d1557 : text := "           302077".
Definition d1558 : text := "           106000".
Definition d1559 : text := "           102005".
Definition d1560 : text := "           002185".
Definition d1561 : text := "           302083".
Definition d1562 : text := " 302089  8 020101".
Definition d1563 : text := "           020106 ".
Definition d1564 : text := " 302175  5 008021".
Definition d1565 : text := "           013155".
Definition d1566 : text := " 304035 15 002153".
Definition d1567 : text := " 304036 12 020082".
Definition d1568 : text := " 307052 12 001063".
Definition d1569 : text := " 307054 13 007032".
Definition d1570 : text := " 307055  9 033045".
Definition d1571 : text := " 307060  2 007061".
Definition d1572 : text := " 307061  3 301031".
Definition d1573 : text := "           307060".
Definition d1574 : text := " 307062  3 301032".
Definition d1575 : text := " 307071 67 301090".
Definition d1576 : text := "           004074".
Definition d1577 : text := "           002051".
Definition d1578 : text := "           004051".
Definition d1579 : text := "           012118".
Definition d1580 : text := "           004052".
Definition d1581 : text := "           012119".
Definition d1582 : text := "           012151".
Definition d1583 : text := "           008050".
Definition d1584 : text := "           014032".
Definition d1585 : text := "           014033".
Definition d1586 : text := "           102018".
Definition d1587 : text := "           008052".
Definition d1588 : text := "           008053".
Definition d1589 : text := "           012152".
Definition d1590 : text := "           012153".
Definition d1591 : text := "           011046".
Definition d1592 : text := "           013051".
Definition d1593 : text := "           004053".
Definition d1594 : text := "           013052".
Definition d1595 : text := " 307072 38 004001".
Definition d1596 : text := "           004022".
Definition d1597 : text := "           102008".
Definition d1598 : text := " 307073  2 307071".
Definition d1599 : text := "           307072".
Definition d1600 : text := " 307079 30 301090 SYNOP data and marine data from costal stations".
Definition d1601 : text := "           022061".
Definition d1602 : text := "           020058".
Definition d1603 : text := " 307091 66 301089".
Definition d1604 : text := "           301090".
Definition d1605 : text := "           008010".
Definition d1606 : text := "           301091".
Definition d1607 : text := "           302073".
Definition d1608 : text := "           302074".
Definition d1609 : text := "           302075".
Definition d1610 : text := "           302071".
Definition d1611 : text := "           302079".
Definition d1612 : text := "           302080".
Definition d1613 : text := "           302081".
Definition d1614 : text := "           302082".
Definition d1615 : text := "           033005".
Definition d1616 : text := "           033006".
Definition d1617 : text := " 307092 62 301089    Surface obs drom N-minute period".
Definition d1618 : text := "           125000".
Definition d1619 : text := "           302070".
Definition d1620 : text := " 307093 21 223000".
Definition d1621 : text := "           236000".
Definition d1622 : text := "           031031".
Definition d1623 : text := "           008083".
Definition d1624 : text := "           223255".
Definition d1625 : text := "           223000".
Definition d1626 : text := "           237000".
Definition d1627 : text := " 307096  8 301090".
Definition d1628 : text := "           301089".
Definition d1629 : text := "           302084".
Definition d1630 : text := "           302085".
Definition d1631 : text := " 308008 84 001003 BUOY".
Definition d1632 : text := "           001020".
Definition d1633 : text := "           002149".
Definition d1634 : text := "           027004".
Definition d1635 : text := "           028004".
Definition d1636 : text := "           001051".
Definition d1637 : text := "           002148".
Definition d1638 : text := "           001014  ".
Definition d1639 : text := "           002040".
Definition d1640 : text := "           033022".
Definition d1641 : text := "           033023".
Definition d1642 : text := "           033027".
Definition d1643 : text := "           302022".
Definition d1644 : text := "           008081".
Definition d1645 : text := "           025026".
Definition d1646 : text := "           002034".
Definition d1647 : text := "           022060".
Definition d1648 : text := "           007070".
Definition d1649 : text := "           002190".
Definition d1650 : text := "           025086".
Definition d1651 : text := "           002168".
Definition d1652 : text := "           002030".
Definition d1653 : text := "           306005".
Definition d1654 : text := "           008082".
Definition d1655 : text := "           002169".
Definition d1656 : text := "           014021".
Definition d1657 : text := "           025028".
Definition d1658 : text := " 308011 27 001011  Climat ship".
Definition d1659 : text := " 308012 28 004001 Monthly normals from an ocean weather station".
Definition d1660 : text := " 308013  2 308011".
Definition d1661 : text := "           308012".
Definition d1662 : text := " 309054 27 301001".
Definition d1663 : text := "           004059".
Definition d1664 : text := "           115000".
Definition d1665 : text := "           011019".
Definition d1666 : text := " 310019 68 001007".
Definition d1667 : text := "           207002".
Definition d1668 : text := "           207000".
Definition d1669 : text := "           033070".
Definition d1670 : text := "           113021".
Definition d1671 : text := "           207006".
Definition d1672 : text := "           033071".
Definition d1673 : text := "           108008".
Definition d1674 : text := "           201107".
Definition d1675 : text := " 310027 12 301071".
Definition d1676 : text := "           304036".
Definition d1677 : text := "           101011".
Definition d1678 : text := "           304035".
Definition d1679 : text := " 310060 53 001007".
Definition d1680 : text := "           207003".
Definition d1681 : text := "           005045".
Definition d1682 : text := "           010001".
Definition d1683 : text := "           002165".
Definition d1684 : text := "           033075".
Definition d1685 : text := "           107003".
Definition d1686 : text := "           008076".
Definition d1687 : text := "           006029".
Definition d1688 : text := "           025140".
Definition d1689 : text := "           033076".
Definition d1690 : text := "           033077".
Definition d1691 : text := "           033078".
Definition d1692 : text := "           014044".
Definition d1693 : text := " 312070 27 001007".
Definition d1694 : text := "           001144".
Definition d1695 : text := "           001124".
Definition d1696 : text := "           030010".
Definition d1697 : text := "           007012".
Definition d1698 : text := "           015012".
Definition d1699 : text := "           012165".
Definition d1700 : text := "           012166".
Definition d1701 : text := "           012167".
Definition d1702 : text := "           012168".
Definition d1703 : text := "           027010".
Definition d1704 : text := "           028010".
Definition d1705 : text := "           002099".
Definition d1706 : text := "           013048".
Definition d1707 : text := "           025081".
Definition d1708 : text := "           025082".
Definition d1709 : text := "           025083".
Definition d1710 : text := "           025084".
Definition d1711 : text := "           012080".
Definition d1712 : text := "           012081".
Definition d1713 : text := "           012082".
Definition d1714 : text := "           025174 ".
Definition d1715 : text := "           033028".
Definition d1716 : text := " 315003 25 001087".
Definition d1717 : text := "           001085".
Definition d1718 : text := "           001086".
Definition d1719 : text := "           022055".
Definition d1720 : text := "           022056".
Definition d1721 : text := "           022067".
Definition d1722 : text := "           008080".
Definition d1723 : text := "           033050".
Definition d1724 : text := "           109000".
Definition d1725 : text := "           007065".
Definition d1726 : text := "           022045".
Definition d1727 : text := "           022064".
Definition d1728 : text := " 316020  5 001023".
Definition d1729 : text := "           001025".
Definition d1730 : text := " 316021 23 301023".
Definition d1731 : text := " 316026  2 316020".
Definition d1732 : text := "           316021".
Definition d1733 : text := " 316030 10 301014".
Definition d1734 : text := "           001037".
Definition d1735 : text := "           010064".
Definition d1736 : text := "           008019".
Definition d1737 : text := "           001065".
Definition d1738 : text := " 316031  8 008021".
Definition d1739 : text := "           301027".
Definition d1740 : text := "           020028".
Definition d1741 : text := " 316032  5 008021".
Definition d1742 : text := " 316033  7 008021".
Definition d1743 : text := " 316034 17 008079".
Definition d1744 : text := "           316030".
Definition d1745 : text := "           316031".
Definition d1746 : text := "           316032".
Definition d1747 : text := "           316033".
Definition d1748 : text := " 316035  9 008079".
Definition d1749 : text := "           020008".
Definition d1750 : text := " 316036 13 008079".
Definition d1751 : text := " 316037  7 008079".
Definition d1752 : text := " 316038  8 008079".
Definition d1753 : text := " 316039  7 008079".
Definition d1754 : text := " 316040  6 316030".
Definition d1755 : text := "           301014".
Definition d1756 : text := " 340005 94 001007".
Definition d1757 : text := "           005044".
Definition d1758 : text := "           001030".
Definition d1759 : text := "           004007".
Definition d1760 : text := "           008074".
Definition d1761 : text := "           008077".
Definition d1762 : text := "           040011".
Definition d1763 : text := "           025097".
Definition d1764 : text := "           025095".
Definition d1765 : text := "           025098".
Definition d1766 : text := "           025099".
Definition d1767 : text := "           025096".
Definition d1768 : text := "           040012".
Definition d1769 : text := "           040013".
Definition d1770 : text := "           021169".
Definition d1771 : text := "           022162".
Definition d1772 : text := "           022163".
Definition d1773 : text := "           025160".
Definition d1774 : text := "           022164".
Definition d1775 : text := "           022165".
Definition d1776 : text := "           022166".
Definition d1777 : text := "           022167".
Definition d1778 : text := "           021118".
Definition d1779 : text := "           021145".
Definition d1780 : text := "           021146".
Definition d1781 : text := "           021147".
Definition d1782 : text := "           022168".
Definition d1783 : text := "           022169".
Definition d1784 : text := "           022170".
Definition d1785 : text := "           025161".
Definition d1786 : text := "           025162".
Definition d1787 : text := "           022171".
Definition d1788 : text := "           022172".
Definition d1789 : text := "           022173".
Definition d1790 : text := "           022174".
Definition d1791 : text := "           021170".
Definition d1792 : text := "           021171".
Definition d1793 : text := "           022175".
Definition d1794 : text := "           021172".
Definition d1795 : text := "           021173  ".
Definition d1796 : text := "           021174".
Definition d1797 : text := "           021175".
Definition d1798 : text := "           102003".
Definition d1799 : text := "           013090".
Definition d1800 : text := "           013091".
Definition d1801 : text := "           011097".
Definition d1802 : text := "           011098".
Definition d1803 : text := "           011095 ".
Definition d1804 : text := "           010096".
Definition d1805 : text := "           010101".
Definition d1806 : text := "           025163".
Definition d1807 : text := "           025164".
Definition d1808 : text := "           010097".
Definition d1809 : text := "           010098".
Definition d1810 : text := "           010099".
Definition d1811 : text := "           010100".
Definition d1812 : text := "           040014".
Definition d1813 : text := " 340007 57 001007".
Definition d1814 : text := "           040020".
Definition d1815 : text := "           020083".
Definition d1816 : text := "           040018".
Definition d1817 : text := "           040019".
Definition d1818 : text := "           040021".
Definition d1819 : text := "           040022".
Definition d1820 : text := " 340008 70 001007".
Definition d1821 : text := "           108003".
Definition d1822 : text := "           040015".
Definition d1823 : text := "           040016".
Definition d1824 : text := "           040017".
Definition d1825 : text := " 340009 23 001007".
Definition d1826 : text := "           025071".
Definition d1827 : text := "           107064".
Definition d1828 : text := "           106032".
Definition d1829 : text := "           008013".
Definition d1830 : text := "           008065".
Definition d1831 : text := "           013039".
Definition d1832 : text := " 340010 97 001007".
Definition d1833 : text := "           040023".
Definition d1834 : text := "           040024".
Definition d1835 : text := "           040025".
Definition d1836 : text := "           021173".
Definition d1837 : text := "           010102".
Definition d1838 : text := " 300015  5 000030".
Definition d1839 : text := "           000024".
Definition d1840 : text := "           000025".
Definition d1841 : text := " 300016  5 000030".
Definition d1842 : text := "           000026".
Definition d1843 : text := "           000027".
Definition d1844 : text := " 301014  3 102002".
Definition d1845 : text := " 301058 37 301011".
Definition d1846 : text := "           201152".
Definition d1847 : text := "           202135".
Definition d1848 : text := "           020111".
Definition d1849 : text := "           020112".
Definition d1850 : text := "           020113".
Definition d1851 : text := "           020114".
Definition d1852 : text := "           020115".
Definition d1853 : text := "           020116".
Definition d1854 : text := "           020117".
Definition d1855 : text := "           020118".
Definition d1856 : text := "           020119".
Definition d1857 : text := "           025035".
Definition d1858 : text := "           020121".
Definition d1859 : text := "           020122".
Definition d1860 : text := "           020123".
Definition d1861 : text := "           020124".
Definition d1862 : text := "           025175".
Definition d1863 : text := "           025063".
Definition d1864 : text := "           202136".
Definition d1865 : text := "           025036".
Definition d1866 : text := "           301059".
Definition d1867 : text := " 301059  3 301021".
Definition d1868 : text := " 302062 33 302001".
Definition d1869 : text := "           302064".
Definition d1870 : text := " 302064 13 007032".
Definition d1871 : text := " 302067 76 008084".
Definition d1872 : text := "           011042".
Definition d1873 : text := "           020063".
Definition d1874 : text := " 302090  4 002038".
Definition d1875 : text := " 303055 10 004086".
Definition d1876 : text := " 304037 14 002153".
Definition d1877 : text := " 305006  6 013060".
Definition d1878 : text := "           013072".
Definition d1879 : text := " 306011  5 301021".
Definition d1880 : text := "           001075".
Definition d1881 : text := "           002147".
Definition d1882 : text := " 306012  4 002007".
Definition d1883 : text := "           008015".
Definition d1884 : text := "           008032".
Definition d1885 : text := "           306029".
Definition d1886 : text := " 306013 11 306012".
Definition d1887 : text := "           022040".
Definition d1888 : text := " 306014 10 306012".
Definition d1889 : text := " 306016  5 301011".
Definition d1890 : text := "           302032".
Definition d1891 : text := " 306027  5 001005".
Definition d1892 : text := "           001052".
Definition d1893 : text := "           002047".
Definition d1894 : text := " 306028  4 306027".
Definition d1895 : text := " 306029  3 025170".
Definition d1896 : text := "           025171".
Definition d1897 : text := "           025172".
Definition d1898 : text := " 306030 15 306027".
Definition d1899 : text := "           111000".
Definition d1900 : text := "           033002".
Definition d1901 : text := "           025025".
Definition d1902 : text := "           022185".
Definition d1903 : text := "           022182".
Definition d1904 : text := " 306031 15 306027".
Definition d1905 : text := "           001053".
Definition d1906 : text := "           004066".
Definition d1907 : text := "           022184".
Definition d1908 : text := " 306032  8 002032".
Definition d1909 : text := "           022066".
Definition d1910 : text := " 307045 27 011041".
Definition d1911 : text := "           001063".
Definition d1912 : text := " 307046  5 020060".
Definition d1913 : text := " 307047  9 105000".
Definition d1914 : text := " 307051 12 307045".
Definition d1915 : text := "           307048".
Definition d1916 : text := " 307052 14 001063".
Definition d1917 : text := " 307056  6 307052".
Definition d1918 : text := " 307079 30 301090".
Definition d1919 : text := " 307080 13 301090".
Definition d1920 : text := " 307081 24 302036".
Definition d1921 : text := " 307082 15 301090".
Definition d1922 : text := " 307083 14 301090".
Definition d1923 : text := " 307084 17 301090".
Definition d1924 : text := " 307086 11 301090".
Definition d1925 : text := " 307090 13 301092".
Definition d1926 : text := " 307092 62 301089".
Definition d1927 : text := " 307093 21 001032".
Definition d1928 : text := "           302063".
Definition d1929 : text := " 308010 16 001011".
Definition d1930 : text := " 308011 27 001011".
Definition d1931 : text := " 308012 28 004001".
Definition d1932 : text := " 308014  3 301093".
Definition d1933 : text := " 308015 49 001003".
Definition d1934 : text := "           001205".
Definition d1935 : text := "           001001".
Definition d1936 : text := "           002044".
Definition d1937 : text := "           002045".
Definition d1938 : text := "           002098".
Definition d1939 : text := "           022071".
Definition d1940 : text := "           022073".
Definition d1941 : text := "           022074".
Definition d1942 : text := "           022076".
Definition d1943 : text := "           022077".
Definition d1944 : text := "           022094".
Definition d1945 : text := "           025043".
Definition d1946 : text := "           022078".
Definition d1947 : text := "           121000".
Definition d1948 : text := "           022082".
Definition d1949 : text := "           022084".
Definition d1950 : text := "           022080".
Definition d1951 : text := "           022085".
Definition d1952 : text := "           022086".
Definition d1953 : text := "           022087".
Definition d1954 : text := "           022088".
Definition d1955 : text := "           022089".
Definition d1956 : text := "           022090".
Definition d1957 : text := "           022186".
Definition d1958 : text := "           022187".
Definition d1959 : text := "           022092".
Definition d1960 : text := " 308016 49 001003".
Definition d1961 : text := "           022072".
Definition d1962 : text := "           022075".
Definition d1963 : text := "           025044".
Definition d1964 : text := "           022079".
Definition d1965 : text := "           022083".
Definition d1966 : text := "           022081".
Definition d1967 : text := "           022091".
Definition d1968 : text := "           022093".
Definition d1969 : text := " 309019  5 031001".
Definition d1970 : text := "           301031".
Definition d1971 : text := " 309070 51 001035".
Definition d1972 : text := "           207001".
Definition d1973 : text := "           008086".
Definition d1974 : text := "           025031".
Definition d1975 : text := "           128000".
Definition d1976 : text := "           011022".
Definition d1977 : text := "           011021".
Definition d1978 : text := " 310018 41 001007".
Definition d1979 : text := "           026030".
Definition d1980 : text := "           033072".
Definition d1981 : text := "           207004".
Definition d1982 : text := " 310027 12 030021".
Definition d1983 : text := "           301071".
Definition d1984 : text := " 310028 12 301071".
Definition d1985 : text := "           304037".
Definition d1986 : text := " 310061 38 001007".
Definition d1987 : text := "           033079".
Definition d1988 : text := "           033080".
Definition d1989 : text := "           012066".
Definition d1990 : text := "           012158".
Definition d1991 : text := "           012159".
Definition d1992 : text := "           033081".
Definition d1993 : text := " 310062 34 001007".
Definition d1994 : text := "           033082".
Definition d1995 : text := "           002155".
Definition d1996 : text := "           033083".
Definition d1997 : text := "           014043".
Definition d1998 : text := "           015042".
Definition d1999 : text := " 311008  8 008004".
Definition d2000 : text := " 311010 75 001008".
Definition d2001 : text := "           001006".
Definition d2002 : text := "           001110".
Definition d2003 : text := "           001111".
Definition d2004 : text := "           001112".
Definition d2005 : text := "           204002".
Definition d2006 : text := "           010053".
Definition d2007 : text := "           011100".
Definition d2008 : text := "           011101".
Definition d2009 : text := "           011102".
Definition d2010 : text := "           011103".
Definition d2011 : text := "           011104".
Definition d2012 : text := "           020042".
Definition d2013 : text := "           020043".
Definition d2014 : text := "           020044".
Definition d2015 : text := "           020045".
Definition d2016 : text := "           011039".
Definition d2017 : text := "           011037".
Definition d2018 : text := "           011077".
Definition d2019 : text := "           011105".
Definition d2020 : text := "           011106".
Definition d2021 : text := "           011107".
Definition d2022 : text := "           011108".
Definition d2023 : text := "           011109".
Definition d2024 : text := "           021088".
Definition d2025 : text := "           025174".
Definition d2026 : text := " 315004 47 007032".
Definition d2027 : text := "           002171".
Definition d2028 : text := "           002031".
Definition d2029 : text := "           002032".
Definition d2030 : text := "           315005".
Definition d2031 : text := "           022178".
Definition d2032 : text := "           022177".
Definition d2033 : text := "           026021".
Definition d2034 : text := "           026022".
Definition d2035 : text := "           026023".
Definition d2036 : text := "           022068".
Definition d2037 : text := "           001036".
Definition d2038 : text := "           022176".
Definition d2039 : text := "           001103".
Definition d2040 : text := "           001087".
Definition d2041 : text := "           001019".
Definition d2042 : text := "           001080".
Definition d2043 : text := "           005036".
Definition d2044 : text := " 315005  8 106000".
Definition d2045 : text := " 315006  5 001011".
Definition d2046 : text := "           306032".
Definition d2047 : text := " 316071  7 301014".
Definition d2048 : text := "           316075".
Definition d2049 : text := "           316076".
Definition d2050 : text := " 316072 10 301014".
Definition d2051 : text := "           316077".
Definition d2052 : text := "           316078".
Definition d2053 : text := "           316079".
Definition d2054 : text := " 316073  7 301014".
Definition d2055 : text := "           316080".
Definition d2056 : text := "           316081".
Definition d2057 : text := " 316074  5 001039".
Definition d2058 : text := " 316075 12 008079".
Definition d2059 : text := "           316074".
Definition d2060 : text := "           020006".
Definition d2061 : text := " 316076  8 008079".
Definition d2062 : text := " 316077  6 008079".
Definition d2063 : text := " 316078  7 008079".
Definition d2064 : text := " 316079  7 008079".
Definition d2065 : text := " 316080  6 008079".
Definition d2066 : text := " 316081  5 008079".
Definition d2067 : text := " 318001  2 024011".
Definition d2068 : text := "           301025".
Definition d2069 : text := " 322028 36 001007".
Definition d2070 : text := "           014019".
Definition d2071 : text := "           005023".
Definition d2072 : text := "           014026".
Definition d2073 : text := "           008044".
Definition d2074 : text := "           015021".
Definition d2075 : text := " 340005 100 001007".
Definition d2076 : text := " 340007 57 201133".
Definition d2077 : text := "           040026".
Definition d2078 : text := " 340010 104 001007".
Definition d2079 : text := " 307045 27 001063".
Definition d2080 : text := " 307081 24 301090".
Definition d2081 : text := "           002046".
Definition d2082 : text := " 311010 85 001008".
Definition d2083 : text := "           002170".
Definition d2084 : text := "           201144".
Definition d2085 : text := "           202133".
Definition d2086 : text := "           119000".
Definition d2087 : text := " 311011 35 001023".
Definition d2088 : text := "           008046".
Definition d2089 : text := "           201139".
Definition d2090 : text := "           015026".
Definition d2091 : text := "           015052".
Definition d2092 : text := "           015053".
Definition d2093 : text := "           015054".
Definition d2094 : text := "           015055".
Definition d2095 : text := "           013099".
Definition d2096 : text := "           013100".
Definition d2097 : text := "           013101".
Definition d2098 : text := " 301029  3 001018".
Definition d2099 : text := " 301030  4 001018".
Definition d2100 : text := " 302090  3 002038".
Definition d2101 : text := " 305001  4 011001".
Definition d2102 : text := "           013071".
Definition d2103 : text := " 305002 11 301012".
Definition d2104 : text := "           014051".
Definition d2105 : text := "           013080".
Definition d2106 : text := "           013081".
Definition d2107 : text := "           013083".
Definition d2108 : text := "           013084".
Definition d2109 : text := " 305004  3 301030".
Definition d2110 : text := "           305002".
Definition d2111 : text := "           305003".
Definition d2112 : text := " 305010  3 305008".
Definition d2113 : text := "           002091".
Definition d2114 : text := " 305016  7 014021".
Definition d2115 : text := " 305017  5 013080".
Definition d2116 : text := "           013085".
Definition d2117 : text := " 306020  8 001075".
Definition d2118 : text := " 306024  4 306020".
Definition d2119 : text := " 307044  9 301001".
Definition d2120 : text := " 307087 21 301001".
Definition d2121 : text := " 307088 25 020003".
Definition d2122 : text := " 307089  2 307087".
Definition d2123 : text := "           307088".
Definition d2124 : text := " 309041  4 307041".
Definition d2125 : text := " 309043  4 307043".
Definition d2126 : text := " 309044  4 307044".
Definition d2127 : text := " 309045  3 301075".
Definition d2128 : text := "           309031".
Definition d2129 : text := " 309046  4 307041".
Definition d2130 : text := " 309047  4 307042".
Definition d2131 : text := " 309048  4 307043".
Definition d2132 : text := " 309049  4 307044".
Definition d2133 : text := " 309071 13 301001".
Definition d2134 : text := " 310063 35 001007".
Definition d2135 : text := "           033084".
Definition d2136 : text := "           033086".
Definition d2137 : text := " 312071 64 001007".
Definition d2138 : text := "           002139".
Definition d2139 : text := "           001040".
Definition d2140 : text := "           022142".
Definition d2141 : text := "           022149".
Definition d2142 : text := "           022143".
Definition d2143 : text := "           022144".
Definition d2144 : text := "           021181".
Definition d2145 : text := "           021180".
Definition d2146 : text := "           021177".
Definition d2147 : text := "           021178".
Definition d2148 : text := "           021179".
Definition d2149 : text := "           010079".
Definition d2150 : text := "           021093".
Definition d2151 : text := "           021182".
Definition d2152 : text := "           022145".
Definition d2153 : text := "           022148".
Definition d2154 : text := "           022146".
Definition d2155 : text := "           022147".
Definition d2156 : text := "           021176".
Definition d2157 : text := "           025182".
Definition d2158 : text := "           025183".
Definition d2159 : text := "           025180".
Definition d2160 : text := "           025184".
Definition d2161 : text := "           025181".
Definition d2162 : text := " 315004 48 001079".
Definition d2163 : text := "           302090".
Definition d2164 : text := " 316020  5 001033".
Definition d2165 : text := " 316027  2 316020".
Definition d2166 : text := "           316022".
Definition d2167 : text := " 316060 14 301011".
Definition d2168 : text := "           020048".
Definition d2169 : text := " 316061 18 301011".
Definition d2170 : text := " 309055 27 301111".
Definition d2171 : text := "           002191".
Definition d2172 : text := "           303055".
Definition d2173 : text := " 310064 34 001007".
Definition d2174 : text := "           033085".
Definition d2175 : text := "           015049".
Definition d2176 : text := "           102011".
Definition d2177 : text := "           015062".
Definition d2178 : text := " 310065 49 001007".
Definition d2179 : text := "           015045".
Definition d2180 : text := "           015046".
Definition d2181 : text := "           033087".
Definition d2182 : text := "           105012".
Definition d2183 : text := "           107019".
Definition d2184 : text := " 310066 51 001007".
Definition d2185 : text := "           015041".
Definition d2186 : text := "           033088".
Definition d2187 : text := " 301126  6 001087".
Definition d2188 : text := " 302091  3 020001".
Definition d2189 : text := " 306016 16 301011".
Definition d2190 : text := "           012060".
Definition d2191 : text := " 306033  3 002033".
Definition d2192 : text := " 306034  5 002031".
Definition d2193 : text := "           003010".
Definition d2194 : text := " 306035 14 112000".
Definition d2195 : text := " 306036 14 112000".
Definition d2196 : text := " 306037 11 109000".
Definition d2197 : text := "           022188".
Definition d2198 : text := " 306038 19 010004".
Definition d2199 : text := " 306039  7 022078".
Definition d2200 : text := " 306040 10 022078".
Definition d2201 : text := "           022069".
Definition d2202 : text := " 306041  5 002032".
Definition d2203 : text := " 306042  6 002169".
Definition d2204 : text := " 315007 57 301003".
Definition d2205 : text := "           001115".
Definition d2206 : text := "           001079".
Definition d2207 : text := "           306033".
Definition d2208 : text := "           306034".
Definition d2209 : text := "           003011".
Definition d2210 : text := "           306035".
Definition d2211 : text := "           306036".
Definition d2212 : text := "           003012".
Definition d2213 : text := "           306037".
Definition d2214 : text := " 315008 25 301126".
Definition d2215 : text := "           306038".
Definition d2216 : text := "           302091".
Definition d2217 : text := "           306039".
Definition d2218 : text := "           306040".
Definition d2219 : text := "           306041".
Definition d2220 : text := " 315009 47 001087".
Definition d2221 : text := "           208016".
Definition d2222 : text := "           208000".
Definition d2223 : text := "           013115".
Definition d2224 : text := "           306042".
Definition d2225 : text := " 307076 68 301090".
Definition d2226 : text := " 307077 39 004001".
Definition d2227 : text := " 307078  2 307076".
Definition d2228 : text := "           307077".
Definition d2229 : text := " 307101 13 301089".
Definition d2230 : text := " 307182 15 301090".
Definition d2231 : text := "           012120".
Definition d2232 : text := " 308021 28 001011".
Definition d2233 : text := " 308022 29 004001".
Definition d2234 : text := " 308023  2 308021".
Definition d2235 : text := "           308022".
Definition d2236 : text := " 340011 78 001007".
Definition d2237 : text := "           025112".
Definition d2238 : text := "           025113".
Definition d2239 : text := "           021148".
Definition d2240 : text := "           022189".
Definition d2241 : text := "           022130".
Definition d2242 : text := "           025167".
Definition d2243 : text := "           025166".
Definition d2244 : text := "           022190".
Definition d2245 : text := "           022131".
Definition d2246 : text := "           022132".
Definition d2247 : text := "           022133".
Definition d2248 : text := "           021183".
Definition d2249 : text := "           021184".
Definition d2250 : text := "           022134".
Definition d2251 : text := "           021185".
Definition d2252 : text := "           021186".
Definition d2253 : text := "           021187".
Definition d2254 : text := "           021188".
Definition d2255 : text := "           013160".
Definition d2256 : text := "           025165".
Definition d2257 : text := " 307074 20 301001".
Definition d2258 : text := "           013012".
Definition d2259 : text := " 301128 23 001081".
Definition d2260 : text := "           002015".
Definition d2261 : text := "           002017".
Definition d2262 : text := " 302067 80 001023".
Definition d2263 : text := "           020137".
Definition d2264 : text := "           020136".
Definition d2265 : text := " 306017 11 002032".
Definition d2266 : text := "           008034".
Definition d2267 : text := " 306018 14 002032".
Definition d2268 : text := " 340012 26 001007".
Definition d2269 : text := "           008091".
Definition d2270 : text := "           005063".
Definition d2271 : text := "           005064".
Definition d2272 : text := "           005066".
Definition d2273 : text := "           005067".
Definition d2274 : text := "           040028".
Definition d2275 : text := "           040027".
Definition d2276 : text := " 307102 45 301089".
Definition d2277 : text := "           001104".
Definition d2278 : text := "           001105".
Definition d2279 : text := "           001106".
Definition d2280 : text := "           003017".
Definition d2281 : text := "           003018".
Definition d2282 : text := "           003019".
Definition d2283 : text := "           003016".
Definition d2284 : text := "           012128".
Definition d2285 : text := "           012129".
Definition d2286 : text := "           013116".
Definition d2287 : text := "           020138".
Definition d2288 : text := " 308015 53 001003".
Definition d2289 : text := "           127000".
Definition d2290 : text := "           022102".
Definition d2291 : text := "           120000".
Definition d2292 : text := "           022108".
Definition d2293 : text := "           022104".
Definition d2294 : text := "           022106".
Definition d2295 : text := " 308016 53 001003".
Definition d2296 : text := "           022103".
Definition d2297 : text := "           022105".
Definition d2298 : text := "           022107".
Definition d2299 : text := " 340013 51 001007".
Definition d2300 : text := "           005068".
Definition d2301 : text := "           005070".
Definition d2302 : text := "           005069".
Definition d2303 : text := "           040036".
Definition d2304 : text := "           007071".
Definition d2305 : text := "           040035".
Definition d2306 : text := "           040029".
Definition d2307 : text := "           040030".
Definition d2308 : text := "           040031".
Definition d2309 : text := "           025187".
Definition d2310 : text := "           040037".
Definition d2311 : text := "           040032".
Definition d2312 : text := "           040033".
Definition d2313 : text := "           040034".
Definition d2314 : text := " 301018  3 001114".
Definition d2315 : text := "           025185".
Definition d2316 : text := "           025186".
Definition d2317 : text := " 302062 27 025188".
Definition d2318 : text := "           302093".
Definition d2319 : text := " 302063 14 302038".
Definition d2320 : text := " 302092  7 011104".
Definition d2321 : text := "           010038".
Definition d2322 : text := "           010039".
Definition d2323 : text := "           011007".
Definition d2324 : text := "           011008".
Definition d2325 : text := " 302093 23 007032".
Definition d2326 : text := "           303099".
Definition d2327 : text := "           003024".
Definition d2328 : text := "           003021".
Definition d2329 : text := " 303099 11 003005".
Definition d2330 : text := "           003006".
Definition d2331 : text := "           003007".
Definition d2332 : text := "           003022".
Definition d2333 : text := "           003003".
Definition d2334 : text := "           003020".
Definition d2335 : text := "           003004".
Definition d2336 : text := "           003023".
Definition d2337 : text := "           003008".
Definition d2338 : text := "           003009".
Definition d2339 : text := " 306043 17 041001".
Definition d2340 : text := "           015028".
Definition d2341 : text := "           041005".
Definition d2342 : text := "           041003".
Definition d2343 : text := "           041002".
Definition d2344 : text := "           014012".
Definition d2345 : text := " 308014 22 101000".
Definition d2346 : text := "           301018".
Definition d2347 : text := "           003001".
Definition d2348 : text := "           301093".
Definition d2349 : text := "           208032".
Definition d2350 : text := "           302092".
Definition d2351 : text := "           306043".
Definition d2352 : text := " 301150  4 001125".
Definition d2353 : text := "           001126".
Definition d2354 : text := "           001127".
Definition d2355 : text := "           001128".
Definition d2356 : text := " 309021 21 301001".
Definition d2357 : text := "           011110".
Definition d2358 : text := "           011111".
Definition d2359 : text := "           011112".
Definition d2360 : text := "           010071".
Definition d2361 : text := "           027079".
Definition d2362 : text := " 309022 19 301001".
Definition d2363 : text := "           012008".
Definition d2364 : text := " 309023 28 301001".
Definition d2365 : text := "           114000".
Definition d2366 : text := "           015063".
Definition d2367 : text := "           015064".
Definition d2368 : text := "           015065".
Definition d2369 : text := "           015066".
Definition d2370 : text := "           015067".
Definition d2371 : text := "           015068".
Definition d2372 : text := "           015069".
Definition d2373 : text := "           015070".
Definition d2374 : text := "           015071".
Definition d2375 : text := "           015072".
Definition d2376 : text := " 301056 10 001087".
Definition d2377 : text := "           002008".
Definition d2378 : text := " 308017 20 301056".
Definition d2379 : text := "           302038".
Definition d2380 : text := " 310067 127 001033".
Definition d2381 : text := "           002161".
Definition d2382 : text := "           004086".
Definition d2383 : text := "           002162".
Definition d2384 : text := "           011113".
Definition d2385 : text := "           025148".
Definition d2386 : text := "           008092".
Definition d2387 : text := "           020056".
Definition d2388 : text := "           117000".
Definition d2389 : text := "           025149".
Definition d2390 : text := "           013109".
Definition d2391 : text := "           040038".
Definition d2392 : text := "           014050".
Definition d2393 : text := " 340015 24 001007".
Definition d2394 : text := "           021120".
Definition d2395 : text := " 310068 45 008070".
Definition d2396 : text := "           013162".
Definition d2397 : text := " 310069 12 005042".
Definition d2398 : text := " 310070  3 310068".
Definition d2399 : text := "           101013".
Definition d2400 : text := "           310069".
Definition d2401 : text := " 310071  3 310068".
Definition d2402 : text := " 310072  3 310068".
Definition d2403 : text := " 301129  4 001007".
Definition d2404 : text := " 301130  7 301011".
Definition d2405 : text := " 301131  5 301021".
Definition d2406 : text := " 303056 12 004086".
Definition d2407 : text := " 304039  4 201136".
Definition d2408 : text := " 304040  8 025140".
Definition d2409 : text := " 307092 140 301150".
Definition d2410 : text := "           208040".
Definition d2411 : text := "           204018".
Definition d2412 : text := "           013111".
Definition d2413 : text := "           002072".
Definition d2414 : text := "           014072".
Definition d2415 : text := " 307103  5 301150".
Definition d2416 : text := "           307101".
Definition d2417 : text := "           013117".
Definition d2418 : text := "           003028".
Definition d2419 : text := "           013163".
Definition d2420 : text := " 309056 14 301150".
Definition d2421 : text := "           301111".
Definition d2422 : text := "           301128".
Definition d2423 : text := "           303056".
Definition d2424 : text := " 309057 13 301150".
Definition d2425 : text := " 310077 127 001033".
Definition d2426 : text := "           001044".
Definition d2427 : text := " 340016 15 301129".
Definition d2428 : text := "           301130".
Definition d2429 : text := "           301131".
Definition d2430 : text := "           202134".
Definition d2431 : text := "           304039".
Definition d2432 : text := "           304040".
Definition d2433 : text := " 340017 184 001007".
Definition d2434 : text := "           025090".
Definition d2435 : text := "           201137".
Definition d2436 : text := "           025190".
Definition d2437 : text := "           025191".
Definition d2438 : text := "           010103".
Definition d2439 : text := "           033092".
Definition d2440 : text := "           008049".
Definition d2441 : text := "           134021".
Definition d2442 : text := "           013164".
Definition d2443 : text := "           022046".
Definition d2444 : text := " 307092140 301150".
Definition d2445 : text := " 308018 10 301150".
Definition d2446 : text := " 310067127 001033".
Definition d2447 : text := " 310077127 001033".
Definition d2448 : text := " 311012 20 301150".
Definition d2449 : text := " 315010 14 112000".
Definition d2450 : text := "           022096".
Definition d2451 : text := "           042011".
Definition d2452 : text := "           042012".
Definition d2453 : text := "           042013".
Definition d2454 : text := "           042014".
Definition d2455 : text := "           042015".
Definition d2456 : text := " 340005100 001007".
Definition d2457 : text := " 340010104 001007".
Definition d2458 : text := " 340017184 001007".
Definition d2459 : text := cr " 300002  2 000002                                                                                                       ".
Definition d2460 : text := cr "           000003                                                                                                       ".
Definition d2461 : text := cr " 300003  3 000010                                                                                                       ".
Definition d2462 : text := cr "           000011                                                                                                       ".
Definition d2463 : text := cr "           000012                                                                                                       ".
Definition d2464 : text := cr " 300004  9 300003                                                                                                       ".
Definition d2465 : text := cr "           000013                                                                                                       ".
Definition d2466 : text := cr "           000014                                                                                                       ".
Definition d2467 : text := cr "           000015                                                                                                       ".
Definition d2468 : text := cr "           000016                                                                                                       ".
Definition d2469 : text := cr "           000017                                                                                                       ".
Definition d2470 : text := cr "           000018                                                                                                       ".
Definition d2471 : text := cr "           000019                                                                                                       ".
Definition d2472 : text := cr "           000020                                                                                                       ".
Definition d2473 : text := cr " 300010  4 300003                                                                                                       ".
Definition d2474 : text := cr "           101000                                                                                                       ".
Definition d2475 : text := cr "           031001                                                                                                       ".
Definition d2476 : text := cr "           000030                                                                                                       ".
Definition d2477 : text := cr " 301001  2 001001                                                                                                       ".
Definition d2478 : text := cr "           001002                                                                                                       ".
Definition d2479 : text := cr " 301002  3 001003                                                                                                       ".
Definition d2480 : text := cr "           001004                                                                                                       ".
Definition d2481 : text := cr "           001005                                                                                                       ".
Definition d2482 : text := cr " 301003  3 001011                                                                                                       ".
Definition d2483 : text := cr "           001012                                                                                                       ".
Definition d2484 : text := cr "           001013                                                                                                       ".
Definition d2485 : text := cr " 301011  3 004001                                                                                                       ".
Definition d2486 : text := cr "           004002                                                                                                       ".
Definition d2487 : text := cr "           004003                                                                                                       ".
Definition d2488 : text := cr " 301012  2 004004                                                                                                       ".
Definition d2489 : text := cr "           004005                                                                                                       ".
Definition d2490 : text := cr " 301013  3 004004                                                                                                       ".
Definition d2491 : text := cr "           004006                                                                                                       ".
Definition d2492 : text := cr " 301021  2 005001                                                                                                       ".
Definition d2493 : text := cr "           006001                                                                                                       ".
Definition d2494 : text := cr " 301022  3 005001                                                                                                       ".
Definition d2495 : text := cr "           007001                                                                                                       ".
Definition d2496 : text := cr " 301023  2 005002                                                                                                       ".
Definition d2497 : text := cr "           006002                                                                                                       ".
Definition d2498 : text := cr " 301024  3 005002                                                                                                       ".
Definition d2499 : text := cr " 301025  3 301023                                                                                                       ".
Definition d2500 : text := cr "           301012                                                                                                       ".
Definition d2501 : text := cr " 301026  7 301021                                                                                                       ".
Definition d2502 : text := cr "           004004                                                                                                       ".
Definition d2503 : text := cr " 301031  5 301001                                                                                                       ".
Definition d2504 : text := cr "           002001                                                                                                       ".
Definition d2505 : text := cr "           301011                                                                                                       ".
Definition d2506 : text := cr "           301022                                                                                                       ".
Definition d2507 : text := cr " 301032  5 301001                                                                                                       ".
Definition d2508 : text := cr "           301024                                                                                                       ".
Definition d2509 : text := cr " 301033  5 001005                                                                                                       ".
Definition d2510 : text := cr "           301021                                                                                                       ".
Definition d2511 : text := cr " 301034  5 001005                                                                                                       ".
Definition d2512 : text := cr "           301023                                                                                                       ".
Definition d2513 : text := cr " 301035  7 001005                                                                                                       ".
Definition d2514 : text := cr " 301036  5 301003                                                                                                       ".
Definition d2515 : text := cr " 301037  6 301001                                                                                                       ".
Definition d2516 : text := cr "           002011                                                                                                       ".
Definition d2517 : text := cr "           002012                                                                                                       ".
Definition d2518 : text := cr " 301038  6 301001                                                                                                       ".
Definition d2519 : text := cr " 301039  6 301003                                                                                                       ".
Definition d2520 : text := cr " 301040  6 301003                                                                                                       ".
Definition d2521 : text := cr " 301041  5 001007                                                                                                       ".
Definition d2522 : text := cr "           002021                                                                                                       ".
Definition d2523 : text := cr "           002022                                                                                                       ".
Definition d2524 : text := cr " 301042  2 301041                                                                                                       ".
Definition d2525 : text := cr " 301043  5 001007                                                                                                       ".
Definition d2526 : text := cr "           002023                                                                                                       ".
Definition d2527 : text := cr "           301013                                                                                                       ".
Definition d2528 : text := cr " 301044  5 001007                                                                                                       ".
Definition d2529 : text := cr "           002024                                                                                                       ".
Definition d2530 : text := cr " 301045  9 301011                                                                                                       ".
Definition d2531 : text := cr "           201138                                                                                                       ".
Definition d2532 : text := cr "           202131                                                                                                       ".
Definition d2533 : text := cr "           201000                                                                                                       ".
Definition d2534 : text := cr "           202000                                                                                                       ".
Definition d2535 : text := cr "           304030                                                                                                       ".
Definition d2536 : text := cr "           304031                                                                                                       ".
Definition d2537 : text := cr " 301047 15 001007                                                                                                       ".
Definition d2538 : text := cr "           025060                                                                                                       ".
Definition d2539 : text := cr "           001033                                                                                                       ".
Definition d2540 : text := cr "           001034                                                                                                       ".
Definition d2541 : text := cr "           301045                                                                                                       ".
Definition d2542 : text := cr " 301048 14 002104                                                                                                       ".
Definition d2543 : text := cr "           002121                                                                                                       ".
Definition d2544 : text := cr "           002113                                                                                                       ".
Definition d2545 : text := cr "           002026                                                                                                       ".
Definition d2546 : text := cr "           002027                                                                                                       ".
Definition d2547 : text := cr "           002111                                                                                                       ".
Definition d2548 : text := cr "           002140                                                                                                       ".
Definition d2549 : text := cr "           202127                                                                                                       ".
Definition d2550 : text := cr "           202126                                                                                                       ".
Definition d2551 : text := cr "           025010                                                                                                       ".
Definition d2552 : text := cr "           021064                                                                                                       ".
Definition d2553 : text := cr " 301049  5 002111                                                                                                       ".
Definition d2554 : text := cr "           002112                                                                                                       ".
Definition d2555 : text := cr "           021062                                                                                                       ".
Definition d2556 : text := cr "           021063                                                                                                       ".
Definition d2557 : text := cr "           021065                                                                                                       ".
Definition d2558 : text := cr " 301051  6 001006                                                                                                       ".
Definition d2559 : text := cr "           002061                                                                                                       ".
Definition d2560 : text := cr "           008004                                                                                                       ".
Definition d2561 : text := cr " 301055  7 001005                                                                                                       ".
Definition d2562 : text := cr "           001014                                                                                                       ".
Definition d2563 : text := cr " 301062  3 101000                                                                                                       ".
Definition d2564 : text := cr "           301001                                                                                                       ".
Definition d2565 : text := cr " 301065  8 001006".
Definition d2566 : text := cr "           001008".
Definition d2567 : text := cr "           002001".
Definition d2568 : text := cr "           002002".
Definition d2569 : text := cr "           002005".
Definition d2570 : text := cr "           002062".
Definition d2571 : text := cr "           002070".
Definition d2572 : text := cr "           002065".
Definition d2573 : text := cr " 301066  6 301011".
Definition d2574 : text := cr "           301013".
Definition d2575 : text := cr "           301023".
Definition d2576 : text := cr "           007004".
Definition d2577 : text := cr "           002064".
Definition d2578 : text := cr "           008004".
Definition d2579 : text := cr " 301071  5 001007                                                                                                       ".
Definition d2580 : text := cr "           001031                                                                                                       ".
Definition d2581 : text := cr "           002020                                                                                                       ".
Definition d2582 : text := cr "           002028                                                                                                       ".
Definition d2583 : text := cr "           002029".
Definition d2584 : text := cr " 301072  4 301071                                                                                                       ".
Definition d2585 : text := cr " 302001  4 010004                                                                                                       ".
Definition d2586 : text := cr "           010051                                                                                                       ".
Definition d2587 : text := cr "           010061                                                                                                       ".
Definition d2588 : text := cr "           010063                                                                                                       ".
Definition d2589 : text := cr " 302002  5 010004                                                                                                       ".
Definition d2590 : text := cr "           007004                                                                                                       ".
Definition d2591 : text := cr "           010003                                                                                                       ".
Definition d2592 : text := cr " 302003  9 011011                                                                                                       ".
Definition d2593 : text := cr "           011012                                                                                                       ".
Definition d2594 : text := cr "           012004                                                                                                       ".
Definition d2595 : text := cr "           012006                                                                                                       ".
Definition d2596 : text := cr "           013003                                                                                                       ".
Definition d2597 : text := cr "           020001                                                                                                       ".
Definition d2598 : text := cr "           020003                                                                                                       ".
Definition d2599 : text := cr "           020004                                                                                                       ".
Definition d2600 : text := cr "           020005                                                                                                       ".
Definition d2601 : text := cr " 302004  7 020010                                                                                                       ".
Definition d2602 : text := cr "           008002                                                                                                       ".
Definition d2603 : text := cr "           020011                                                                                                       ".
Definition d2604 : text := cr "           020013                                                                                                       ".
Definition d2605 : text := cr "           020012                                                                                                       ".
Definition d2606 : text := cr " 302005  4 008002                                                                                                       ".
Definition d2607 : text := cr " 302006  4 010004                                                                                                       ".
Definition d2608 : text := cr "           010062                                                                                                       ".
Definition d2609 : text := cr " 302011  3 302001                                                                                                       ".
Definition d2610 : text := cr "           302003                                                                                                       ".
Definition d2611 : text := cr "           302004                                                                                                       ".
Definition d2612 : text := cr " 302012  3 302002                                                                                                       ".
Definition d2613 : text := cr " 302013  5 302006                                                                                                       ".
Definition d2614 : text := cr "           302005                                                                                                       ".
Definition d2615 : text := cr " 302021  3 022001                                                                                                       ".
Definition d2616 : text := cr "           022011                                                                                                       ".
Definition d2617 : text := cr "           022021                                                                                                       ".
Definition d2618 : text := cr " 302022  3 022002                                                                                                       ".
Definition d2619 : text := cr "           022012                                                                                                       ".
Definition d2620 : text := cr "           022022                                                                                                       ".
Definition d2621 : text := cr " 302023  3 022003                                                                                                       ".
Definition d2622 : text := cr "           022013                                                                                                       ".
Definition d2623 : text := cr "           022023                                                                                                       ".
Definition d2624 : text := cr " 302024  3 302022                                                                                                       ".
Definition d2625 : text := cr "           101002                                                                                                       ".
Definition d2626 : text := cr "           302023                                                                                                       ".
Definition d2627 : text := cr " 302051 12 010004                                                                                                       ".
Definition d2628 : text := cr "           012051                                                                                                       ".
Definition d2629 : text := cr "           012016                                                                                                       ".
Definition d2630 : text := cr "           012017                                                                                                       ".
Definition d2631 : text := cr "           013004                                                                                                       ".
Definition d2632 : text := cr "           102004                                                                                                       ".
Definition d2633 : text := cr "           008051                                                                                                       ".
Definition d2634 : text := cr "           008020                                                                                                       ".
Definition d2635 : text := cr " 303001  3 007003                                                                                                       ".
Definition d2636 : text := cr "           011001                                                                                                       ".
Definition d2637 : text := cr "           011002                                                                                                       ".
Definition d2638 : text := cr " 303002  3 007004                                                                                                       ".
Definition d2639 : text := cr " 303003  4 007004                                                                                                       ".
Definition d2640 : text := cr "           012001                                                                                                       ".
Definition d2641 : text := cr "           012003                                                                                                       ".
Definition d2642 : text := cr " 303004  6 007004                                                                                                       ".
Definition d2643 : text := cr " 303011  4 007003                                                                                                       ".
Definition d2644 : text := cr "           008001                                                                                                       ".
Definition d2645 : text := cr " 303012  4 007004                                                                                                       ".
Definition d2646 : text := cr " 303013  7 007004                                                                                                       ".
Definition d2647 : text := cr " 303014  7 007004                                                                                                       ".
Definition d2648 : text := cr " 303021  4 007004                                                                                                       ".
Definition d2649 : text := cr "           204007                                                                                                       ".
Definition d2650 : text := cr "           031021                                                                                                       ".
Definition d2651 : text := cr " 303022  3 303021                                                                                                       ".
Definition d2652 : text := cr "           204000                                                                                                       ".
Definition d2653 : text := cr " 303023  3 303021                                                                                                       ".
Definition d2654 : text := cr " 303024  3 303021                                                                                                       ".
Definition d2655 : text := cr "           013016                                                                                                       ".
Definition d2656 : text := cr " 303025  5 002025                                                                                                       ".
Definition d2657 : text := cr "           012063                                                                                                       ".
Definition d2658 : text := cr " 303026  6 007004                                                                                                       ".
Definition d2659 : text := cr "           008003                                                                                                       ".
Definition d2660 : text := cr " 303027  5 007004                                                                                                       ".
Definition d2661 : text := cr " 303031  6 007004                                                                                                       ".
Definition d2662 : text := cr "           007021                                                                                                       ".
Definition d2663 : text := cr "           007022                                                                                                       ".
Definition d2664 : text := cr "           008012                                                                                                       ".
Definition d2665 : text := cr "           012061                                                                                                       ".
Definition d2666 : text := cr " 303032  2 020011                                                                                                       ".
Definition d2667 : text := cr "           020016                                                                                                       ".
Definition d2668 : text := cr " 303033  2 020010                                                                                                       ".
Definition d2669 : text := cr " 303041  8 002152                                                                                                       ".
Definition d2670 : text := cr "           002153                                                                                                       ".
Definition d2671 : text := cr "           002154                                                                                                       ".
Definition d2672 : text := cr "           012071                                                                                                       ".
Definition d2673 : text := cr " 304001  5 008003                                                                                                       ".
Definition d2674 : text := cr "           010004                                                                                                       ".
Definition d2675 : text := cr " 304002  4 008003                                                                                                       ".
Definition d2676 : text := cr " 304003  2 008003                                                                                                       ".
Definition d2677 : text := cr " 304004  4 008003                                                                                                       ".
Definition d2678 : text := cr "           020010                                                                                                       ".
Definition d2679 : text := cr " 304005  4 002024                                                                                                       ".
Definition d2680 : text := cr " 304006  3 014001                                                                                                       ".
Definition d2681 : text := cr "           014001                                                                                                       ".
Definition d2682 : text := cr "           014003                                                                                                       ".
Definition d2683 : text := cr " 304011 27 002163                                                                                                       ".
Definition d2684 : text := cr "           002164                                                                                                       ".
Definition d2685 : text := cr "           007024                                                                                                       ".
Definition d2686 : text := cr "           002057                                                                                                       ".
Definition d2687 : text := cr "           008021                                                                                                       ".
Definition d2688 : text := cr "           004001                                                                                                       ".
Definition d2689 : text := cr "           004024                                                                                                       ".
Definition d2690 : text := cr "           110004                                                                                                       ".
Definition d2691 : text := cr "           103010                                                                                                       ".
Definition d2692 : text := cr "           002163                                                                                                       ".
Definition d2693 : text := cr " 304030  3 027031                                                                                                       ".
Definition d2694 : text := cr "           028031                                                                                                       ".
Definition d2695 : text := cr "           010031                                                                                                       ".
Definition d2696 : text := cr " 304031  3 001041                                                                                                       ".
Definition d2697 : text := cr "           001042                                                                                                       ".
Definition d2698 : text := cr "           001043                                                                                                       ".
Definition d2699 : text := cr " 304032  5 002153                                                                                                       ".
Definition d2700 : text := cr "           020081                                                                                                       ".
Definition d2701 : text := cr "           020082                                                                                                       ".
Definition d2702 : text := cr " 304033  8 002152                                                                                                       ".
Definition d2703 : text := cr "           002166                                                                                                       ".
Definition d2704 : text := cr "           002167                                                                                                       ".
Definition d2705 : text := cr "           012075                                                                                                       ".
Definition d2706 : text := cr "           012076                                                                                                       ".
Definition d2707 : text := cr " 306001  5 002032                                                                                                       ".
Definition d2708 : text := cr "           102000                                                                                                       ".
Definition d2709 : text := cr "           007062                                                                                                       ".
Definition d2710 : text := cr "           022042                                                                                                       ".
Definition d2711 : text := cr " 306002  3 002031                                                                                                       ".
Definition d2712 : text := cr "           022004                                                                                                       ".
Definition d2713 : text := cr "           022031                                                                                                       ".
Definition d2714 : text := cr " 306003  4 002002                                                                                                       ".
Definition d2715 : text := cr "           011011                                                                                                       ".
Definition d2716 : text := cr " 306004  7 002032                                                                                                       ".
Definition d2717 : text := cr "           002033                                                                                                       ".
Definition d2718 : text := cr "           103000                                                                                                       ".
Definition d2719 : text := cr "           022043                                                                                                       ".
Definition d2720 : text := cr "           022062                                                                                                       ".
Definition d2721 : text := cr " 306005  6 002031                                                                                                       ".
Definition d2722 : text := cr " 306006  3 306003                                                                                                       ".
Definition d2723 : text := cr "           306002                                                                                                       ".
Definition d2724 : text := cr "           022063                                                                                                       ".
Definition d2725 : text := cr " 306007  6 001012                                                                                                       ".
Definition d2726 : text := cr "           306008                                                                                                       ".
Definition d2727 : text := cr "           027003                                                                                                       ".
Definition d2728 : text := cr "           028003                                                                                                       ".
Definition d2729 : text := cr " 306008  3 002034                                                                                                       ".
Definition d2730 : text := cr "           002035                                                                                                       ".
Definition d2731 : text := cr "           002036                                                                                                       ".
Definition d2732 : text := cr " 306020  4 306024                                                                                                       ".
Definition d2733 : text := cr "           102006                                                                                                       ".
Definition d2734 : text := cr "           022038                                                                                                       ".
Definition d2735 : text := cr "           022039                                                                                                       ".
Definition d2736 : text := cr " 306021  7 001075                                                                                                       ".
Definition d2737 : text := cr "           022122                                                                                                       ".
Definition d2738 : text := cr "           022123                                                                                                       ".
Definition d2739 : text := cr "           303002                                                                                                       ".
Definition d2740 : text := cr " 306022  5 001075                                                                                                       ".
Definition d2741 : text := cr " 306023  8 001015                                                                                                       ".
Definition d2742 : text := cr "           022120                                                                                                       ".
Definition d2743 : text := cr "           022121                                                                                                       ".
Definition d2744 : text := cr " 306024  8 001075                                                                                                       ".
Definition d2745 : text := cr "           004025                                                                                                       ".
Definition d2746 : text := cr "           004015                                                                                                       ".
Definition d2747 : text := cr " 307001  2 301031                                                                                                       ".
Definition d2748 : text := cr "           302011                                                                                                       ".
Definition d2749 : text := cr " 307002  2 301032                                                                                                       ".
Definition d2750 : text := cr " 307003  4 307001                                                                                                       ".
Definition d2751 : text := cr " 307004  4 307002                                                                                                       ".
Definition d2752 : text := cr " 307005  3 307001                                                                                                       ".
Definition d2753 : text := cr "           101004                                                                                                       ".
Definition d2754 : text := cr " 307006  3 307002                                                                                                       ".
Definition d2755 : text := cr " 307007  2 301031                                                                                                       ".
Definition d2756 : text := cr "           302012                                                                                                       ".
Definition d2757 : text := cr " 307008  2 301032                                                                                                       ".
Definition d2758 : text := cr " 307009  2 301031                                                                                                       ".
Definition d2759 : text := cr "           302013                                                                                                       ".
Definition d2760 : text := cr " 307011 16 001063                                                                                                       ".
Definition d2761 : text := cr "           007006                                                                                                       ".
Definition d2762 : text := cr "           011016                                                                                                       ".
Definition d2763 : text := cr "           011017                                                                                                       ".
Definition d2764 : text := cr "           011041                                                                                                       ".
Definition d2765 : text := cr "           010052                                                                                                       ".
Definition d2766 : text := cr "           020009                                                                                                       ".
Definition d2767 : text := cr " 307012  5 103000                                                                                                       ".
Definition d2768 : text := cr "           008023                                                                                                       ".
Definition d2769 : text := cr "           005021                                                                                                       ".
Definition d2770 : text := cr " 307013  8 106000                                                                                                       ".
Definition d2771 : text := cr "           001064                                                                                                       ".
Definition d2772 : text := cr "           008014                                                                                                       ".
Definition d2773 : text := cr "           020061                                                                                                       ".
Definition d2774 : text := cr "           020018                                                                                                       ".
Definition d2775 : text := cr " 307014  3 101000                                                                                                       ".
Definition d2776 : text := cr "           020019                                                                                                       ".
Definition d2777 : text := cr " 307015  8 101000                                                                                                       ".
Definition d2778 : text := cr "           020002                                                                                                       ".
Definition d2779 : text := cr " 307016  3 101000                                                                                                       ".
Definition d2780 : text := cr "           020020                                                                                                       ".
Definition d2781 : text := cr " 307017  3 101000                                                                                                       ".
Definition d2782 : text := cr " 307018 18 008016                                                                                                       ".
Definition d2783 : text := cr "           008017                                                                                                       ".
Definition d2784 : text := cr "           104000                                                                                                       ".
Definition d2785 : text := cr " 307020  3 307011                                                                                                       ".
Definition d2786 : text := cr "           307014                                                                                                       ".
Definition d2787 : text := cr "           307016                                                                                                       ".
Definition d2788 : text := cr " 307021  9 307011                                                                                                       ".
Definition d2789 : text := cr "           307012                                                                                                       ".
Definition d2790 : text := cr "           307013                                                                                                       ".
Definition d2791 : text := cr "           307015                                                                                                       ".
Definition d2792 : text := cr "           307017                                                                                                       ".
Definition d2793 : text := cr "           307018                                                                                                       ".
Definition d2794 : text := cr " 307022 31 001015".
Definition d2795 : text := cr "           301011".
Definition d2796 : text := cr "           301012".
Definition d2797 : text := cr "           301022".
Definition d2798 : text := cr "           008021".
Definition d2799 : text := cr "           004025".
Definition d2800 : text := cr "           010004".
Definition d2801 : text := cr "           012001".
Definition d2802 : text := cr "           013003".
Definition d2803 : text := cr "           033038".
Definition d2804 : text := cr "           008022".
Definition d2805 : text := cr "           106025".
Definition d2806 : text := cr "           002020".
Definition d2807 : text := cr "           001050".
Definition d2808 : text := cr "           005021".
Definition d2809 : text := cr "           007021".
Definition d2810 : text := cr "           015031".
Definition d2811 : text := cr "           015032".
Definition d2812 : text := cr "           008060".
Definition d2813 : text := cr "           015033".
Definition d2814 : text := cr "           015034".
Definition d2815 : text := cr "           015035".
Definition d2816 : text := cr "           201131".
Definition d2817 : text := cr "           202129".
Definition d2818 : text := cr "           013016".
Definition d2819 : text := cr "           202000".
Definition d2820 : text := cr "           201000".
Definition d2821 : text := cr "           015011".
Definition d2822 : text := cr " 308001  3 301033                                                                                                       ".
Definition d2823 : text := cr " 308002  3 301034                                                                                                       ".
Definition d2824 : text := cr " 308003  3 301035                                                                                                       ".
Definition d2825 : text := cr " 308004  3 301036                                                                                                       ".
Definition d2826 : text := cr " 308005  2 308004                                                                                                       ".
Definition d2827 : text := cr "           302024                                                                                                       ".
Definition d2828 : text := cr " 308006  8 010004                                                                                                       ".
Definition d2829 : text := cr " 308007  4 301055                                                                                                       ".
Definition d2830 : text := cr " 309001  4 301037                                                                                                       ".
Definition d2831 : text := cr "           303011                                                                                                       ".
Definition d2832 : text := cr " 309002  4 301038                                                                                                       ".
Definition d2833 : text := cr " 309003  4 301037                                                                                                       ".
Definition d2834 : text := cr "           303012                                                                                                       ".
Definition d2835 : text := cr " 309004  4 301038                                                                                                       ".
Definition d2836 : text := cr " 309005  5 301037                                                                                                       ".
Definition d2837 : text := cr "           303013                                                                                                       ".
Definition d2838 : text := cr " 309006  5 301038                                                                                                       ".
Definition d2839 : text := cr " 309007  5 301037                                                                                                       ".
Definition d2840 : text := cr "           303014                                                                                                       ".
Definition d2841 : text := cr " 309008  5 301038                                                                                                       ".
Definition d2842 : text := cr " 309011  4 301039                                                                                                       ".
Definition d2843 : text := cr " 309012  4 301039                                                                                                       ".
Definition d2844 : text := cr " 309013  5 301039                                                                                                       ".
Definition d2845 : text := cr " 309014  5 301039                                                                                                       ".
Definition d2846 : text := cr " 309015  4 301040                                                                                                       ".
Definition d2847 : text := cr " 309016  4 301040                                                                                                       ".
Definition d2848 : text := cr " 309017  5 301040                                                                                                       ".
Definition d2849 : text := cr " 309018  5 301031                                                                                                       ".
Definition d2850 : text := cr " 309019  5 301031                                                                                                       ".
Definition d2851 : text := cr "           002003                                                                                                       ".
Definition d2852 : text := cr " 309020  8 301031                                                                                                       ".
Definition d2853 : text := cr "           007003                                                                                                       ".
Definition d2854 : text := cr "           011003                                                                                                       ".
Definition d2855 : text := cr "           011004                                                                                                       ".
Definition d2856 : text := cr "           011005                                                                                                       ".
Definition d2857 : text := cr " 310001  5 301042                                                                                                       ".
Definition d2858 : text := cr "           303031                                                                                                       ".
Definition d2859 : text := cr "           303032                                                                                                       ".
Definition d2860 : text := cr "           101026                                                                                                       ".
Definition d2861 : text := cr "           303025                                                                                                       ".
Definition d2862 : text := cr " 310002  5 301042                                                                                                       ".
Definition d2863 : text := cr "           101009                                                                                                       ".
Definition d2864 : text := cr "           303023                                                                                                       ".
Definition d2865 : text := cr " 310003  5 301042                                                                                                       ".
Definition d2866 : text := cr "           101006                                                                                                       ".
Definition d2867 : text := cr " 310004  5 301042                                                                                                       ".
Definition d2868 : text := cr "           101003                                                                                                       ".
Definition d2869 : text := cr "           303024                                                                                                       ".
Definition d2870 : text := cr " 310005  6 301042                                                                                                       ".
Definition d2871 : text := cr "           303033                                                                                                       ".
Definition d2872 : text := cr " 310006  6 301042                                                                                                       ".
Definition d2873 : text := cr " 310007  6 301042                                                                                                       ".
Definition d2874 : text := cr " 310008  8 310011                                                                                                       ".
Definition d2875 : text := cr "           101019                                                                                                       ".
Definition d2876 : text := cr "           310012                                                                                                       ".
Definition d2877 : text := cr "           002150                                                                                                       ".
Definition d2878 : text := cr "           025079                                                                                                       ".
Definition d2879 : text := cr "           025080                                                                                                       ".
Definition d2880 : text := cr "           033032                                                                                                       ".
Definition d2881 : text := cr "           014045                                                                                                       ".
Definition d2882 : text := cr " 310009  3 310011                                                                                                       ".
Definition d2883 : text := cr "           101015                                                                                                          ".
Definition d2884 : text := cr " 310010  3 310011                                                                                                       ".
Definition d2885 : text := cr "           101005                                                                                                          ".
Definition d2886 : text := cr " 310011 45 008070                                                                                                       ".
Definition d2887 : text := cr "           001033                                                                                                          ".
Definition d2888 : text := cr "           001034                                                                                                          ".
Definition d2889 : text := cr "           008070                                                                                                          ".
Definition d2890 : text := cr "           001007                                                                                                       ".
Definition d2891 : text := cr "           002048                                                                                                       ".
Definition d2892 : text := cr "           005040                                                                                                          ".
Definition d2893 : text := cr "           025075                                                                                                          ".
Definition d2894 : text := cr "           201133                                                                                                          ".
Definition d2895 : text := cr "           005041                                                                                                          ".
Definition d2896 : text := cr "           201000                                                                                                          ".
Definition d2897 : text := cr "           005043                                                                                                       ".
Definition d2898 : text := cr "           025070                                                                                                       ".
Definition d2899 : text := cr "           033030                                                                                                          ".
Definition d2900 : text := cr "           033031                                                                                                          ".
Definition d2901 : text := cr "           004001                                                                                                          ".
Definition d2902 : text := cr "           004002                                                                                                          ".
Definition d2903 : text := cr "           004003                                                                                                          ".
Definition d2904 : text := cr "           004004                                                                                                          ".
Definition d2905 : text := cr "           201138                                                                                                          ".
Definition d2906 : text := cr "           004006                                                                                                          ".
Definition d2907 : text := cr "           202000                                                                                                          ".
Definition d2908 : text := cr "           005001                                                                                                          ".
Definition d2909 : text := cr "           007001                                                                                                          ".
Definition d2910 : text := cr "           007024                                                                                                          ".
Definition d2911 : text := cr "           005021                                                                                                          ".
Definition d2912 : text := cr "           007025                                                                                                          ".
Definition d2913 : text := cr "           005022                                                                                                       ".
Definition d2914 : text := cr "           033033                                                                                                       ".
Definition d2915 : text := cr "           002151                                                                                                          ".
Definition d2916 : text := cr "           012064                                                                                                          ".
Definition d2917 : text := cr "           012064                                                                                                       ".
Definition d2918 : text := cr "           002151                                                                                                       ".
Definition d2919 : text := cr " 310012 10 002150                                                                                                       ".
Definition d2920 : text := cr "           025076                                                                                                          ".
Definition d2921 : text := cr "           025077                                                                                                          ".
Definition d2922 : text := cr "           025078                                                                                                          ".
Definition d2923 : text := cr "           033032                                                                                                          ".
Definition d2924 : text := cr "           201132                                                                                                          ".
Definition d2925 : text := cr "           202129                                                                                                       ".
Definition d2926 : text := cr " 310014  3 301072                                                                                                       ".
Definition d2927 : text := cr "           303041                                                                                                          ".
Definition d2928 : text := cr "           304011                                                                                                       ".
Definition d2929 : text := cr " 310015 13 301072                                                                                                       ".
Definition d2930 : text := cr "           010002                                                                                                          ".
Definition d2931 : text := cr "           101003                                                                                                          ".
Definition d2932 : text := cr "           304032                                                                                                          ".
Definition d2933 : text := cr "           002152                                                                                                       ".
Definition d2934 : text := cr "           304033                                                                                                       ".
Definition d2935 : text := cr " 310016 13 301072                                                                                                       ".
Definition d2936 : text := cr "           101012                                                                                                          ".
Definition d2937 : text := cr " 310023 17 301072                                                                                                       ".
Definition d2938 : text := cr "           030021".
Definition d2939 : text := cr "           030022".
Definition d2940 : text := cr "           008012".
Definition d2941 : text := cr "           304032".
Definition d2942 : text := cr "           105002                                                                                                          ".
Definition d2943 : text := cr " 310024 17 301072                                                                                                       ".
Definition d2944 : text := cr " 311001  9 301051                                                                                                       ".
Definition d2945 : text := cr "           007002                                                                                                       ".
Definition d2946 : text := cr "           011031                                                                                                       ".
Definition d2947 : text := cr "           011032                                                                                                       ".
Definition d2948 : text := cr "           011033                                                                                                       ".
Definition d2949 : text := cr "           020041                                                                                                       ".
Definition d2950 : text := cr " 311002  4 301065".
Definition d2951 : text := cr "           301066".
Definition d2952 : text := cr "           311003".
Definition d2953 : text := cr "           311004".
Definition d2954 : text := cr " 311003  5 010070".
Definition d2955 : text := cr "           011001".
Definition d2956 : text := cr "           011002".
Definition d2957 : text := cr "           012001".
Definition d2958 : text := cr "           013002".
Definition d2959 : text := cr " 311004 18 101000".
Definition d2960 : text := cr "           031000".
Definition d2961 : text := cr "           011034".
Definition d2962 : text := cr "           101000".
Definition d2963 : text := cr "           011035".
Definition d2964 : text := cr "           011075".
Definition d2965 : text := cr "           011076".
Definition d2966 : text := cr "           033025".
Definition d2967 : text := cr "           033026".
Definition d2968 : text := cr " 312001  2 301043                                                                                                       ".
Definition d2969 : text := cr "           304001                                                                                                       ".
Definition d2970 : text := cr " 312002  2 301043                                                                                                       ".
Definition d2971 : text := cr "           304002                                                                                                       ".
Definition d2972 : text := cr " 312003  2 301042                                                                                                       ".
Definition d2973 : text := cr "           304003                                                                                                       ".
Definition d2974 : text := cr " 312004  2 301042                                                                                                       ".
Definition d2975 : text := cr "           304004                                                                                                       ".
Definition d2976 : text := cr " 312005  2 301042                                                                                                       ".
Definition d2977 : text := cr "           020014                                                                                                       ".
Definition d2978 : text := cr " 312006  2 301044                                                                                                       ".
Definition d2979 : text := cr "           304005                                                                                                       ".
Definition d2980 : text := cr " 312007  2 301042                                                                                                       ".
Definition d2981 : text := cr "           304006                                                                                                       ".
Definition d2982 : text := cr " 312010  6 001007                                                                                                       ".
Definition d2983 : text := cr "           005040                                                                                                       ".
Definition d2984 : text := cr "           005041                                                                                                       ".
Definition d2985 : text := cr "           004043                                                                                                       ".
Definition d2986 : text := cr " 312011  9 202131                                                                                                       ".
Definition d2987 : text := cr "           201149                                                                                                       ".
Definition d2988 : text := cr "           010002                                                                                                       ".
Definition d2989 : text := cr "           005053                                                                                                       ".
Definition d2990 : text := cr " 312012  6 202129                                                                                                       ".
Definition d2991 : text := cr "           201132                                                                                                       ".
Definition d2992 : text := cr " 312013  6 005033                                                                                                       ".
Definition d2993 : text := cr "           201135                                                                                                       ".
Definition d2994 : text := cr " 312014  8 312010                                                                                                       ".
Definition d2995 : text := cr "           312011                                                                                                       ".
Definition d2996 : text := cr "           105056                                                                                                       ".
Definition d2997 : text := cr "           005042                                                                                                       ".
Definition d2998 : text := cr "           005052                                                                                                       ".
Definition d2999 : text := cr "           312012                                                                                                       ".
Definition d3000 : text := cr "           312013                                                                                                       ".
Definition d3001 : text := cr " 312015 10 109011                                                                                                       ".
Definition d3002 : text := cr " 312016  3 312010                                                                                                       ".
Definition d3003 : text := cr "           312015                                                                                                       ".
Definition d3004 : text := cr " 312017 10 109008                                                                                                       ".
Definition d3005 : text := cr " 312018  3 312010                                                                                                       ".
Definition d3006 : text := cr "           312018                                                                                                       ".
Definition d3007 : text := cr " 312020 11 301047                                                                                                       ".
Definition d3008 : text := cr "           301048                                                                                                       ".
Definition d3009 : text := cr "           015015                                                                                                       ".
Definition d3010 : text := cr "           029002                                                                                                       ".
Definition d3011 : text := cr "           021076                                                                                                       ".
Definition d3012 : text := cr "           104012                                                                                                       ".
Definition d3013 : text := cr "           006030                                                                                                       ".
Definition d3014 : text := cr "           102012                                                                                                       ".
Definition d3015 : text := cr "           005030                                                                                                       ".
Definition d3016 : text := cr "           021075                                                                                                       ".
Definition d3017 : text := cr "           021066                                                                                                       ".
Definition d3018 : text := cr " 312021  6 301047                                                                                                       ".
Definition d3019 : text := cr "           301049                                                                                                       ".
Definition d3020 : text := cr "           021067                                                                                                       ".
Definition d3021 : text := cr " 312022 15 301047                                                                                                       ".
Definition d3022 : text := cr "           008022                                                                                                       ".
Definition d3023 : text := cr "           011050                                                                                                       ".
Definition d3024 : text := cr "           022070                                                                                                       ".
Definition d3025 : text := cr "           022026                                                                                                       ".
Definition d3026 : text := cr "           312041                                                                                                       ".
Definition d3027 : text := cr "           010050                                                                                                       ".
Definition d3028 : text := cr "           021068                                                                                                       ".
Definition d3029 : text := cr "           021071                                                                                                       ".
Definition d3030 : text := cr "           021072                                                                                                       ".
Definition d3031 : text := cr "           021073                                                                                                       ".
Definition d3032 : text := cr "           312042                                                                                                       ".
Definition d3033 : text := cr "           015011                                                                                                       ".
Definition d3034 : text := cr " 312023  7 301047                                                                                                       ".
Definition d3035 : text := cr "           103003                                                                                                       ".
Definition d3036 : text := cr "           022050                                                                                                       ".
Definition d3037 : text := cr "           021069                                                                                                       ".
Definition d3038 : text := cr "           021085                                                                                                       ".
Definition d3039 : text := cr " 312024 11 312020".
Definition d3040 : text := cr "           008060".
Definition d3041 : text := cr "           008022".
Definition d3042 : text := cr "           025014".
Definition d3043 : text := cr "           022101".
Definition d3044 : text := cr "           022097".
Definition d3045 : text := cr "           022098".
Definition d3046 : text := cr "           022099".
Definition d3047 : text := cr "           022100".
Definition d3048 : text := cr " 312041  5 201141                                                                                                       ".
Definition d3049 : text := cr "           202130                                                                                                       ".
Definition d3050 : text := cr " 312042  6 021077                                                                                                       ".
Definition d3051 : text := cr "           021078                                                                                                       ".
Definition d3052 : text := cr "           021079                                                                                                       ".
Definition d3053 : text := cr "           021080                                                                                                       ".
Definition d3054 : text := cr "           021081                                                                                                       ".
Definition d3055 : text := cr "           021082                                                                                                       ".
Definition d3056 : text := cr " 313009  4 021001                                                                                                       ".
Definition d3057 : text := cr "           021001                                                                                                       ".
Definition d3058 : text := cr " 313010  4 021036                                                                                                       ".
Definition d3059 : text := cr "           021036                                                                                                       ".
Definition d3060 : text := cr " 313031  5 006002                                                                                                       ".
Definition d3061 : text := cr "           006012                                                                                                       ".
Definition d3062 : text := cr "           031002                                                                                                       ".
Definition d3063 : text := cr "           030001                                                                                                       ".
Definition d3064 : text := cr " 313032  5 005002                                                                                                       ".
Definition d3065 : text := cr "           005012                                                                                                       ".
Definition d3066 : text := cr "           313031                                                                                                       ".
Definition d3067 : text := cr " 313041 13 006002                                                                                                       ".
Definition d3068 : text := cr "           110000                                                                                                       ".
Definition d3069 : text := cr "           031012                                                                                                       ".
Definition d3070 : text := cr " 313042  5 005002                                                                                                       ".
Definition d3071 : text := cr "           313041                                                                                                       ".
Definition d3072 : text := cr " 313043 16 006002                                                                                                       ".
Definition d3073 : text := cr "           005002                                                                                                       ".
Definition d3074 : text := cr "           112000                                                                                                       ".
Definition d3075 : text := cr "           031011                                                                                                       ".
Definition d3076 : text := cr " 315001  5 001011                                                                                                       ".
Definition d3077 : text := cr "           306001                                                                                                       ".
Definition d3078 : text := cr " 315002  5 001011                                                                                                       ".
Definition d3079 : text := cr "           306004                                                                                                       ".
Definition d3080 : text := cr " 316001 10 301011                                                                                                       ".
Definition d3081 : text := cr "           001021                                                                                                       ".
Definition d3082 : text := cr "           002041                                                                                                       ".
Definition d3083 : text := cr "           019001                                                                                                       ".
Definition d3084 : text := cr "           019002                                                                                                       ".
Definition d3085 : text := cr "           019003                                                                                                       ".
Definition d3086 : text := cr "           019004                                                                                                       ".
Definition d3087 : text := cr " 316002 15 008021".
Definition d3088 : text := cr "           004001".
Definition d3089 : text := cr "           004002".
Definition d3090 : text := cr "           004003".
Definition d3091 : text := cr "           004004".
Definition d3092 : text := cr "           004005".
Definition d3093 : text := cr "           001033".
Definition d3094 : text := cr "           008021".
Definition d3095 : text := cr "           007002".
Definition d3096 : text := cr " 316003 12 110000".
Definition d3097 : text := cr "           031001".
Definition d3098 : text := cr "           008011".
Definition d3099 : text := cr "           008007".
Definition d3100 : text := cr "           104000".
Definition d3101 : text := cr "           005002".
Definition d3102 : text := cr "           006002".
Definition d3103 : text := cr "           010002".
Definition d3104 : text := cr " 316004 13 111000".
Definition d3105 : text := cr "           102000".
Definition d3106 : text := cr "           011031".
Definition d3107 : text := cr " 316005 10 108000".
Definition d3108 : text := cr "           008005".
Definition d3109 : text := cr "           001026".
Definition d3110 : text := cr "           019001".
Definition d3111 : text := cr " 316006 14 112000".
Definition d3112 : text := cr "           020011".
Definition d3113 : text := cr "           020012".
Definition d3114 : text := cr " 316007 12 110000".
Definition d3115 : text := cr "           019005".
Definition d3116 : text := cr "           019006".
Definition d3117 : text := cr " 316008 13 111000".
Definition d3118 : text := cr "           008001".
Definition d3119 : text := cr "           008023".
Definition d3120 : text := cr "           103000".
Definition d3121 : text := cr " 316009 13 111000".
Definition d3122 : text := cr "           020041".
Definition d3123 : text := cr " 316010  9 107000".
Definition d3124 : text := cr "           001022".
Definition d3125 : text := cr " 316011 19 116000".
Definition d3126 : text := cr "           020090".
Definition d3127 : text := cr " 318001  2 301025                                                                                                       ".
Definition d3128 : text := cr "           024011                                                                                                       ".
Definition d3129 : text := cr " 318003  4 301026                                                                                                       ".
Definition d3130 : text := cr "           024005                                                                                                       ".
Definition d3131 : text := cr "           024004                                                                                                       ".
Definition d3132 : text := cr "           024021                                                                                                       ".
Definition d3133 : text := cr " 318004  6 301025                                                                                                       ".
Definition d3134 : text := cr "           004023                                                                                                       ".
Definition d3135 : text := cr "           013011                                                                                                       ".
Definition d3136 : text := cr "           024022                                                                                                       ".
Definition d3137 : text := cr " 321001  6 002101                                                                                                       ".
Definition d3138 : text := cr "           002114                                                                                                       ".
Definition d3139 : text := cr "           002105                                                                                                       ".
Definition d3140 : text := cr "           002106                                                                                                       ".
Definition d3141 : text := cr "           002107                                                                                                       ".
Definition d3142 : text := cr " 321003  4 021051                                                                                                       ".
Definition d3143 : text := cr "           021014                                                                                                       ".
Definition d3144 : text := cr "           021017                                                                                                       ".
Definition d3145 : text := cr "           025030                                                                                                       ".
Definition d3146 : text := cr " 321004  5 301031                                                                                                       ".
Definition d3147 : text := cr "           321003                                                                                                       ".
Definition d3148 : text := cr " 321005 12 025004                                                                                                       ".
Definition d3149 : text := cr "           002122                                                                                                       ".
Definition d3150 : text := cr "           002123                                                                                                       ".
Definition d3151 : text := cr "           002124                                                                                                       ".
Definition d3152 : text := cr "           002125                                                                                                       ".
Definition d3153 : text := cr "           002126                                                                                                       ".
Definition d3154 : text := cr "           002127                                                                                                       ".
Definition d3155 : text := cr "           002128                                                                                                       ".
Definition d3156 : text := cr "           002129                                                                                                       ".
Definition d3157 : text := cr "           002130                                                                                                       ".
Definition d3158 : text := cr "           002131                                                                                                       ".
Definition d3159 : text := cr " 321006  4 025001                                                                                                       ".
Definition d3160 : text := cr "           025002                                                                                                       ".
Definition d3161 : text := cr "           025003                                                                                                       ".
Definition d3162 : text := cr "           025005                                                                                                       ".
Definition d3163 : text := cr " 321007  8 025009                                                                                                       ".
Definition d3164 : text := cr "           025011                                                                                                       ".
Definition d3165 : text := cr "           025012                                                                                                       ".
Definition d3166 : text := cr "           025013                                                                                                       ".
Definition d3167 : text := cr "           025015                                                                                                       ".
Definition d3168 : text := cr "           025016                                                                                                       ".
Definition d3169 : text := cr "           025017                                                                                                       ".
Definition d3170 : text := cr " 321008  3 025006                                                                                                       ".
Definition d3171 : text := cr "           025007                                                                                                       ".
Definition d3172 : text := cr "           025008                                                                                                       ".
Definition d3173 : text := cr " 321009  2 025018                                                                                                       ".
Definition d3174 : text := cr "           025019                                                                                                       ".
Definition d3175 : text := cr " 321010 13 002101                                                                                                       ".
Definition d3176 : text := cr "           002102                                                                                                       ".
Definition d3177 : text := cr "           002103                                                                                                       ".
Definition d3178 : text := cr "           002104                                                                                                       ".
Definition d3179 : text := cr "           002108                                                                                                       ".
Definition d3180 : text := cr "           002109                                                                                                       ".
Definition d3181 : text := cr "           002110                                                                                                       ".
Definition d3182 : text := cr "           002132                                                                                                       ".
Definition d3183 : text := cr "           002133                                                                                                       ".
Definition d3184 : text := cr " 321011  3 030031                                                                                                       ".
Definition d3185 : text := cr "           030032                                                                                                       ".
Definition d3186 : text := cr " 321012  3 101000                                                                                                       ".
Definition d3187 : text := cr "           002135                                                                                                       ".
Definition d3188 : text := " 307059 12 307045".
Definition d3189 : text := " 308008 84 001003".
Definition d3190 : text := " 308015 47 001003".
Definition d3191 : text := " 308016 47 001003".
Definition d3192 : text := " 304037 15 002153".
Definition d3193 : text := " 307046  5 020060 ".
Definition d3194 : text := " 307047  9 105000 ".
Definition d3195 : text := "           301011 ".
Definition d3196 : text := " 307056  6 307052 ".
Definition d3197 : text := " 307059 12 307045 ".
Definition d3198 : text := "           307048 ".
Definition d3199 : text := " 307080 13 301090 ".
Definition d3200 : text := " 307081 24 301090 ".
Definition d3201 : text := " 307082 15 301090 ".
Definition d3202 : text := " 307083 14 301090 ".
Definition d3203 : text := " 307084 17 301090 ".
Definition d3204 : text := " 307086 11 301090 ".
Definition d3205 : text := " 307090 13 301092 ".
Definition d3206 : text := " 307091 66 301089 ".
Definition d3207 : text := " 308008 84 001003 ".
Definition d3208 : text := " 308010 16 001011 ".
Definition d3209 : text := " 308011 27 001011 ".
Definition d3210 : text := " 308012 28 004001 ".
Definition d3211 : text := " 308015 49 001003 ".
Definition d3212 : text := " 308016 49 001003 ".
Definition d3213 : text := " 340008 61 001007".
Definition d3214 : text := "           002019 ".
Definition d3215 : text := " 300002  2 000002                                                                                                       ".
Definition d3216 : text := "           000003                                                                                                       ".
Definition d3217 : text := " 300003  3 000010                                                                                                       ".
Definition d3218 : text := "           000011                                                                                                       ".
Definition d3219 : text := "           000012                                                                                                       ".
Definition d3220 : text := " 300004  9 300003                                                                                                       ".
Definition d3221 : text := "           000013                                                                                                       ".
Definition d3222 : text := "           000014                                                                                                       ".
Definition d3223 : text := "           000015                                                                                                       ".
Definition d3224 : text := "           000016                                                                                                       ".
Definition d3225 : text := "           000017                                                                                                       ".
Definition d3226 : text := "           000018                                                                                                       ".
Definition d3227 : text := "           000019                                                                                                       ".
Definition d3228 : text := "           000020                                                                                                       ".
Definition d3229 : text := " 300010  4 300003                                                                                                       ".
Definition d3230 : text := "           101000                                                                                                       ".
Definition d3231 : text := "           031001                                                                                                       ".
Definition d3232 : text := "           000030                                                                                                       ".
Definition d3233 : text := " 301001  2 001001                                                                                                       ".
Definition d3234 : text := "           001002                                                                                                       ".
Definition d3235 : text := " 301002  3 001003                                                                                                       ".
Definition d3236 : text := "           001004                                                                                                       ".
Definition d3237 : text := "           001005                                                                                                       ".
Definition d3238 : text := " 301003  3 001011                                                                                                       ".
Definition d3239 : text := "           001012                                                                                                       ".
Definition d3240 : text := "           001013                                                                                                       ".
Definition d3241 : text := " 301004  4 001001                                                                                                       ".
Definition d3242 : text := "           001015                                                                                                       ".
Definition d3243 : text := "           002001                                                                                                       ".
Definition d3244 : text := " 301011  3 004001                                                                                                       ".
Definition d3245 : text := "           004002                                                                                                       ".
Definition d3246 : text := "           004003                                                                                                       ".
Definition d3247 : text := " 301012  2 004004                                                                                                       ".
Definition d3248 : text := "           004005                                                                                                       ".
Definition d3249 : text := " 301013  3 004004                                                                                                       ".
Definition d3250 : text := "           004006                                                                                                       ".
Definition d3251 : text := " 301021  2 005001                                                                                                       ".
Definition d3252 : text := "           006001                                                                                                       ".
Definition d3253 : text := " 301022  3 005001                                                                                                       ".
Definition d3254 : text := "           007001                                                                                                       ".
Definition d3255 : text := " 301023  2 005002                                                                                                       ".
Definition d3256 : text := "           006002                                                                                                       ".
Definition d3257 : text := " 301024  3 005002                                                                                                       ".
Definition d3258 : text := " 301025  3 301023                                                                                                       ".
Definition d3259 : text := "           301012                                                                                                       ".
Definition d3260 : text := " 301026  7 301021                                                                                                       ".
Definition d3261 : text := "           004004                                                                                                       ".
Definition d3262 : text := " 301031  5 301001                                                                                                       ".
Definition d3263 : text := "           301011                                                                                                       ".
Definition d3264 : text := "           301022                                                                                                       ".
Definition d3265 : text := " 301032  5 301001                                                                                                       ".
Definition d3266 : text := "           301024                                                                                                       ".
Definition d3267 : text := " 301033  5 001005                                                                                                       ".
Definition d3268 : text := "           301021                                                                                                       ".
Definition d3269 : text := " 301034  5 001005                                                                                                       ".
Definition d3270 : text := "           301023                                                                                                       ".
Definition d3271 : text := " 301035  7 001005                                                                                                       ".
Definition d3272 : text := " 301036  5 301003                                                                                                       ".
Definition d3273 : text := " 301037  6 301001                                                                                                       ".
Definition d3274 : text := "           002011                                                                                                       ".
Definition d3275 : text := "           002012                                                                                                       ".
Definition d3276 : text := " 301038  6 301001                                                                                                       ".
Definition d3277 : text := " 301039  6 301003                                                                                                       ".
Definition d3278 : text := " 301040  6 301003                                                                                                       ".
Definition d3279 : text := " 301041  5 001007                                                                                                       ".
Definition d3280 : text := "           002021                                                                                                       ".
Definition d3281 : text := "           002022                                                                                                       ".
Definition d3282 : text := " 301042  2 301041                                                                                                       ".
Definition d3283 : text := " 301043  5 001007                                                                                                       ".
Definition d3284 : text := "           002023                                                                                                       ".
Definition d3285 : text := "           301013                                                                                                       ".
Definition d3286 : text := " 301044  5 001007                                                                                                       ".
Definition d3287 : text := "           002024                                                                                                       ".
Definition d3288 : text := " 301045  9 301011                                                                                                       ".
Definition d3289 : text := "           201138                                                                                                       ".
Definition d3290 : text := "           202131                                                                                                       ".
Definition d3291 : text := "           201000                                                                                                       ".
Definition d3292 : text := "           202000                                                                                                       ".
Definition d3293 : text := "           304030                                                                                                       ".
Definition d3294 : text := "           304031                                                                                                       ".
Definition d3295 : text := " 301046 10 001007                                                                                                       ".
Definition d3296 : text := "           002048                                                                                                       ".
Definition d3297 : text := "           021119                                                                                                       ".
Definition d3298 : text := "           025060                                                                                                       ".
Definition d3299 : text := "           202124                                                                                                       ".
Definition d3300 : text := "           002026                                                                                                       ".
Definition d3301 : text := "           002027                                                                                                       ".
Definition d3302 : text := "           005040                                                                                                       ".
Definition d3303 : text := " 301047 15 001007                                                                                                       ".
Definition d3304 : text := "           001033                                                                                                       ".
Definition d3305 : text := "           001034                                                                                                       ".
Definition d3306 : text := "           301045                                                                                                       ".
Definition d3307 : text := " 301048 14 002104                                                                                                       ".
Definition d3308 : text := "           002121                                                                                                       ".
Definition d3309 : text := "           002113                                                                                                       ".
Definition d3310 : text := "           002111                                                                                                       ".
Definition d3311 : text := "           002140                                                                                                       ".
Definition d3312 : text := "           202127                                                                                                       ".
Definition d3313 : text := "           202126                                                                                                       ".
Definition d3314 : text := "           025010                                                                                                       ".
Definition d3315 : text := "           021064                                                                                                       ".
Definition d3316 : text := " 301049  5 002111                                                                                                       ".
Definition d3317 : text := "           002112                                                                                                       ".
Definition d3318 : text := "           021062                                                                                                       ".
Definition d3319 : text := "           021063                                                                                                       ".
Definition d3320 : text := "           021065                                                                                                       ".
Definition d3321 : text := " 301051  6 001006                                                                                                       ".
Definition d3322 : text := "           002061                                                                                                       ".
Definition d3323 : text := "           008004                                                                                                       ".
Definition d3324 : text := " 301055  7 001005                                                                                                       ".
Definition d3325 : text := "           001014                                                                                                       ".
Definition d3326 : text := " 301062  3 101000                                                                                                       ".
Definition d3327 : text := "           301001                                                                                                       ".
Definition d3328 : text := " 301065  8 001006                                                                                                       ".
Definition d3329 : text := "           001008                                                                                                       ".
Definition d3330 : text := "           002002                                                                                                       ".
Definition d3331 : text := "           002005                                                                                                       ".
Definition d3332 : text := "           002062                                                                                                       ".
Definition d3333 : text := "           002070                                                                                                       ".
Definition d3334 : text := "           002065                                                                                                       ".
Definition d3335 : text := " 301066  6 301011                                                                                                       ".
Definition d3336 : text := "           007004                                                                                                       ".
Definition d3337 : text := "           002064                                                                                                       ".
Definition d3338 : text := " 301071  5 001007                                                                                                       ".
Definition d3339 : text := "           001031                                                                                                       ".
Definition d3340 : text := "           002020                                                                                                       ".
Definition d3341 : text := "           002028                                                                                                       ".
Definition d3342 : text := "           002029                                                                                                       ".
Definition d3343 : text := " 301072  4 301071                                                                                                       ".
Definition d3344 : text := " 301090  6 301004                                                                                                       ".
Definition d3345 : text := "           007030                                                                                                       ".
Definition d3346 : text := "           007031                                                                                                       ".
Definition d3347 : text := " 301091 10 002180                                                                                                       ".
Definition d3348 : text := "           002181                                                                                                       ".
Definition d3349 : text := "           002182                                                                                                       ".
Definition d3350 : text := "           002183                                                                                                       ".
Definition d3351 : text := "           002184                                                                                                       ".
Definition d3352 : text := "           002179                                                                                                       ".
Definition d3353 : text := "           002186                                                                                                       ".
Definition d3354 : text := "           002187                                                                                                       ".
Definition d3355 : text := "           002188                                                                                                       ".
Definition d3356 : text := "           002189                                                                                                       ".
Definition d3357 : text := " 301111  6 301001                                                                                                       ".
Definition d3358 : text := "           001011                                                                                                       ".
Definition d3359 : text := "           002013                                                                                                       ".
Definition d3360 : text := "           002014                                                                                                       ".
Definition d3361 : text := "           002003                                                                                                       ".
Definition d3362 : text := " 301113  3 008021                                                                                                       ".
Definition d3363 : text := " 301114  5 301021                                                                                                       ".
Definition d3364 : text := "           007007                                                                                                       ".
Definition d3365 : text := "           033024                                                                                                       ".
Definition d3366 : text := " 301193  5 001007                                                                                                       ".
Definition d3367 : text := "           002196                                                                                                       ".
Definition d3368 : text := "           002221                                                                                                       ".
Definition d3369 : text := "           002222                                                                                                       ".
Definition d3370 : text := " 301194  9 001194                                                                                                       ".
Definition d3371 : text := " 301195  9 001195                                                                                                       ".
Definition d3372 : text := " 301196  7 301003                                                                                                       ".
Definition d3373 : text := " 301197  9 001006                                                                                                       ".
Definition d3374 : text := "           002063                                                                                                       ".
Definition d3375 : text := " 301200  2 001032                                                                                                       ".
Definition d3376 : text := "           033194                                                                                                       ".
Definition d3377 : text := " 301201  2 101003                                                                                                       ".
Definition d3378 : text := "           033193                                                                                                       ".
Definition d3379 : text := " 301202  2 001031                                                                                                       ".
Definition d3380 : text := "           001032                                                                                                       ".
Definition d3381 : text := " 301237 12 001007                                                                                                       ".
Definition d3382 : text := " 301238 14 002104                                                                                                       ".
Definition d3383 : text := "           002192                                                                                                       ".
Definition d3384 : text := "           021194                                                                                                       ".
Definition d3385 : text := " 301239  5 002111                                                                                                       ".
Definition d3386 : text := "           021192                                                                                                       ".
Definition d3387 : text := "           021193                                                                                                       ".
Definition d3388 : text := "           021195                                                                                                       ".
Definition d3389 : text := " 301240  5 201131                                                                                                       ".
Definition d3390 : text := "           202129                                                                                                       ".
Definition d3391 : text := "           022021                                                                                                       ".
Definition d3392 : text := " 301241  5 201141                                                                                                       ".
Definition d3393 : text := "           202130                                                                                                       ".
Definition d3394 : text := " 301242  6 021207                                                                                                       ".
Definition d3395 : text := "           021208                                                                                                       ".
Definition d3396 : text := "           021209                                                                                                       ".
Definition d3397 : text := "           021210                                                                                                       ".
Definition d3398 : text := "           021211                                                                                                       ".
Definition d3399 : text := "           021212                                                                                                       ".
Definition d3400 : text := " 301250  4 301193                                                                                                       ".
Definition d3401 : text := " 302001  4 010004                                                                                                       ".
Definition d3402 : text := "           010051                                                                                                       ".
Definition d3403 : text := "           010061                                                                                                       ".
Definition d3404 : text := "           010063                                                                                                       ".
Definition d3405 : text := " 302002  5 010004                                                                                                       ".
Definition d3406 : text := "           010003                                                                                                       ".
Definition d3407 : text := " 302003  9 011011                                                                                                       ".
Definition d3408 : text := "           011012                                                                                                       ".
Definition d3409 : text := "           012004                                                                                                       ".
Definition d3410 : text := "           012006                                                                                                       ".
Definition d3411 : text := "           013003                                                                                                       ".
Definition d3412 : text := "           020001                                                                                                       ".
Definition d3413 : text := "           020003                                                                                                       ".
Definition d3414 : text := "           020004                                                                                                       ".
Definition d3415 : text := "           020005                                                                                                       ".
Definition d3416 : text := " 302004  7 020010                                                                                                       ".
Definition d3417 : text := "           008002                                                                                                       ".
Definition d3418 : text := "           020011                                                                                                       ".
Definition d3419 : text := "           020013                                                                                                       ".
Definition d3420 : text := "           020012                                                                                                       ".
Definition d3421 : text := " 302005  4 008002                                                                                                       ".
Definition d3422 : text := " 302006  4 010004                                                                                                       ".
Definition d3423 : text := "           010062                                                                                                       ".
Definition d3424 : text := " 302011  3 302001                                                                                                       ".
Definition d3425 : text := "           302003                                                                                                       ".
Definition d3426 : text := "           302004                                                                                                       ".
Definition d3427 : text := " 302012  3 302002                                                                                                       ".
Definition d3428 : text := " 302013  5 302006                                                                                                       ".
Definition d3429 : text := "           302005                                                                                                       ".
Definition d3430 : text := " 302021  3 022001                                                                                                       ".
Definition d3431 : text := "           022011                                                                                                       ".
Definition d3432 : text := " 302022  3 022002                                                                                                       ".
Definition d3433 : text := "           022012                                                                                                       ".
Definition d3434 : text := "           022022                                                                                                       ".
Definition d3435 : text := " 302023  3 022003                                                                                                       ".
Definition d3436 : text := "           022013                                                                                                       ".
Definition d3437 : text := "           022023                                                                                                       ".
Definition d3438 : text := " 302024  3 302022                                                                                                       ".
Definition d3439 : text := "           101002                                                                                                       ".
Definition d3440 : text := "           302023                                                                                                       ".
Definition d3441 : text := " 302031  4 302001                                                                                                       ".
Definition d3442 : text := "           010009                                                                                                       ".
Definition d3443 : text := " 302032  4 007032                                                                                                       ".
Definition d3444 : text := "           012101                                                                                                       ".
Definition d3445 : text := "           012103                                                                                                       ".
Definition d3446 : text := " 302033  2 007032                                                                                                       ".
Definition d3447 : text := " 302034  2 007032                                                                                                       ".
Definition d3448 : text := "           013023                                                                                                       ".
Definition d3449 : text := " 302035  8 302032                                                                                                       ".
Definition d3450 : text := "           302033                                                                                                       ".
Definition d3451 : text := "           302034                                                                                                       ".
Definition d3452 : text := "           007032                                                                                                       ".
Definition d3453 : text := " 302036  7 105000                                                                                                       ".
Definition d3454 : text := "           020014                                                                                                       ".
Definition d3455 : text := "           020017                                                                                                       ".
Definition d3456 : text := " 302037  3 020062                                                                                                       ".
Definition d3457 : text := "           013013                                                                                                       ".
Definition d3458 : text := "           012113                                                                                                       ".
Definition d3459 : text := " 302038  4 020003                                                                                                       ".
Definition d3460 : text := "           004024                                                                                                       ".
Definition d3461 : text := " 302039  2 004024                                                                                                       ".
Definition d3462 : text := "           014031                                                                                                       ".
Definition d3463 : text := " 302040  4 007032                                                                                                       ".
Definition d3464 : text := "           102002                                                                                                       ".
Definition d3465 : text := "           013011                                                                                                       ".
Definition d3466 : text := " 302041  7 007032                                                                                                       ".
Definition d3467 : text := "           012111                                                                                                       ".
Definition d3468 : text := "           012112                                                                                                       ".
Definition d3469 : text := " 302042 11 007032                                                                                                       ".
Definition d3470 : text := "           008021                                                                                                       ".
Definition d3471 : text := "           004025                                                                                                       ".
Definition d3472 : text := "           011001                                                                                                       ".
Definition d3473 : text := "           011002                                                                                                       ".
Definition d3474 : text := "           103002                                                                                                       ".
Definition d3475 : text := "           011043                                                                                                       ".
Definition d3476 : text := "           011041                                                                                                       ".
Definition d3477 : text := " 302043  7 302038                                                                                                       ".
Definition d3478 : text := "           302039                                                                                                       ".
Definition d3479 : text := "           302040                                                                                                       ".
Definition d3480 : text := "           302041                                                                                                       ".
Definition d3481 : text := "           302042                                                                                                       ".
Definition d3482 : text := " 302044  3 004024                                                                                                       ".
Definition d3483 : text := "           002004                                                                                                       ".
Definition d3484 : text := "           013033                                                                                                       ".
Definition d3485 : text := " 302045  7 004024                                                                                                       ".
Definition d3486 : text := "           014002                                                                                                       ".
Definition d3487 : text := "           014004                                                                                                       ".
Definition d3488 : text := "           014016                                                                                                       ".
Definition d3489 : text := "           014028                                                                                                       ".
Definition d3490 : text := "           014029                                                                                                       ".
Definition d3491 : text := "           014030                                                                                                       ".
Definition d3492 : text := " 302046  3 004024                                                                                                       ".
Definition d3493 : text := "           012049                                                                                                       ".
Definition d3494 : text := " 302047  3 102003                                                                                                       ".
Definition d3495 : text := "           020054                                                                                                       ".
Definition d3496 : text := " 302048  5 005021                                                                                                       ".
Definition d3497 : text := "           007021                                                                                                       ".
Definition d3498 : text := "           005021                                                                                                       ".
Definition d3499 : text := " 302049  7 008002                                                                                                       ".
Definition d3500 : text := " 302051 12 010004                                                                                                       ".
Definition d3501 : text := "           012051                                                                                                       ".
Definition d3502 : text := "           012016                                                                                                       ".
Definition d3503 : text := "           012017                                                                                                       ".
Definition d3504 : text := "           013004                                                                                                       ".
Definition d3505 : text := "           102004                                                                                                       ".
Definition d3506 : text := "           008051                                                                                                       ".
Definition d3507 : text := "           008020                                                                                                       ".
Definition d3508 : text := " 302069  4 007032                                                                                                       ".
Definition d3509 : text := "           007033                                                                                                       ".
Definition d3510 : text := "           033041                                                                                                       ".
Definition d3511 : text := " 302070  8 007032                                                                                                       ".
Definition d3512 : text := "           011016                                                                                                       ".
Definition d3513 : text := "           011017                                                                                                       ".
Definition d3514 : text := " 302071 14 007032                                                                                                       ".
Definition d3515 : text := " 302072  5 007032                                                                                                       ".
Definition d3516 : text := " 302073  7 020010                                                                                                       ".
Definition d3517 : text := "           105004                                                                                                       ".
Definition d3518 : text := " 302074  4 020003                                                                                                       ".
Definition d3519 : text := " 302075  5 008021                                                                                                       ".
Definition d3520 : text := "           013055                                                                                                       ".
Definition d3521 : text := "           013058                                                                                                       ".
Definition d3522 : text := " 302076  7 020021                                                                                                       ".
Definition d3523 : text := "           020022                                                                                                       ".
Definition d3524 : text := "           026020                                                                                                       ".
Definition d3525 : text := "           020023                                                                                                       ".
Definition d3526 : text := "           020024                                                                                                       ".
Definition d3527 : text := "           020025                                                                                                       ".
Definition d3528 : text := "           020026                                                                                                       ".
Definition d3529 : text := " 302077  8 007032                                                                                                       ".
Definition d3530 : text := " 302078  4 002176                                                                                                       ".
Definition d3531 : text := "           020062                                                                                                       ".
Definition d3532 : text := "           002177                                                                                                       ".
Definition d3533 : text := " 302079  5 007032                                                                                                       ".
Definition d3534 : text := "           002175                                                                                                       ".
Definition d3535 : text := "           002178                                                                                                       ".
Definition d3536 : text := " 302080  3 002185                                                                                                       ".
Definition d3537 : text := " 302081  2 004025                                                                                                       ".
Definition d3538 : text := " 302082  7 004025                                                                                                       ".
Definition d3539 : text := " 302083  8 004025                                                                                                       ".
Definition d3540 : text := "           008023                                                                                                       ".
Definition d3541 : text := "           010004                                                                                                       ".
Definition d3542 : text := " 302205  5 201131                                                                                                       ".
Definition d3543 : text := " 302206  9 302205                                                                                                       ".
Definition d3544 : text := "           201130                                                                                                       ".
Definition d3545 : text := "           022001                                                                                                       ".
Definition d3546 : text := " 302207  5 022193                                                                                                       ".
Definition d3547 : text := "           022194                                                                                                       ".
Definition d3548 : text := "           022195                                                                                                       ".
Definition d3549 : text := "           022196                                                                                                       ".
Definition d3550 : text := "           022197                                                                                                       ".
Definition d3551 : text := " 302250  5 102000                                                                                                       ".
Definition d3552 : text := "           020193                                                                                                       ".
Definition d3553 : text := "           020194                                                                                                       ".
Definition d3554 : text := " 303001  3 007003                                                                                                       ".
Definition d3555 : text := " 303002  3 007004                                                                                                       ".
Definition d3556 : text := " 303003  4 007004                                                                                                       ".
Definition d3557 : text := "           012001                                                                                                       ".
Definition d3558 : text := "           012003                                                                                                       ".
Definition d3559 : text := " 303004  6 007004                                                                                                       ".
Definition d3560 : text := " 303011  4 007003                                                                                                       ".
Definition d3561 : text := "           008001                                                                                                       ".
Definition d3562 : text := " 303012  4 007004                                                                                                       ".
Definition d3563 : text := " 303013  7 007004                                                                                                       ".
Definition d3564 : text := " 303014  7 007004                                                                                                       ".
Definition d3565 : text := " 303021  4 007004                                                                                                       ".
Definition d3566 : text := "           204007                                                                                                       ".
Definition d3567 : text := "           031021                                                                                                       ".
Definition d3568 : text := " 303022  3 303021                                                                                                       ".
Definition d3569 : text := "           204000                                                                                                       ".
Definition d3570 : text := " 303023  3 303021                                                                                                       ".
Definition d3571 : text := " 303024  3 303021                                                                                                       ".
Definition d3572 : text := "           013016                                                                                                       ".
Definition d3573 : text := " 303025  5 002025                                                                                                       ".
Definition d3574 : text := "           012063                                                                                                       ".
Definition d3575 : text := " 303026  6 007004                                                                                                       ".
Definition d3576 : text := "           008003                                                                                                       ".
Definition d3577 : text := " 303027  5 007004                                                                                                       ".
Definition d3578 : text := " 303031  6 007004                                                                                                       ".
Definition d3579 : text := "           007022                                                                                                       ".
Definition d3580 : text := "           008012                                                                                                       ".
Definition d3581 : text := "           012061                                                                                                       ".
Definition d3582 : text := " 303032  2 020011                                                                                                       ".
Definition d3583 : text := "           020016                                                                                                       ".
Definition d3584 : text := " 303033  2 020010                                                                                                       ".
Definition d3585 : text := " 303041  8 002152                                                                                                       ".
Definition d3586 : text := "           002153                                                                                                       ".
Definition d3587 : text := "           002154                                                                                                       ".
Definition d3588 : text := "           012071                                                                                                       ".
Definition d3589 : text := " 303051  7 004086                                                                                                       ".
Definition d3590 : text := "           008042                                                                                                       ".
Definition d3591 : text := "           005015                                                                                                       ".
Definition d3592 : text := "           006015                                                                                                       ".
Definition d3593 : text := "           011061                                                                                                       ".
Definition d3594 : text := "           011062                                                                                                       ".
Definition d3595 : text := " 303054 10 004086                                                                                                       ".
Definition d3596 : text := " 303249  7 002252                                                                                                       ".
Definition d3597 : text := "           104000                                                                                                       ".
Definition d3598 : text := "           002199                                                                                                       ".
Definition d3599 : text := " 303250  8 002252                                                                                                       ".
Definition d3600 : text := "           002197                                                                                                       ".
Definition d3601 : text := "           002198                                                                                                       ".
Definition d3602 : text := "           012193                                                                                                       ".
Definition d3603 : text := " 303251  8 002252                                                                                                       ".
Definition d3604 : text := "           105000                                                                                                       ".
Definition d3605 : text := "           002254                                                                                                       ".
Definition d3606 : text := "           002251                                                                                                       ".
Definition d3607 : text := " 303252  8 002252                                                                                                       ".
Definition d3608 : text := "           012194                                                                                                       ".
Definition d3609 : text := " 304001  5 008003                                                                                                       ".
Definition d3610 : text := " 304002  4 008003                                                                                                       ".
Definition d3611 : text := " 304003  2 008003                                                                                                       ".
Definition d3612 : text := " 304004  4 008003                                                                                                       ".
Definition d3613 : text := "           020010                                                                                                       ".
Definition d3614 : text := " 304005  4 002024                                                                                                       ".
Definition d3615 : text := " 304006  3 014001                                                                                                       ".
Definition d3616 : text := "           014001                                                                                                       ".
Definition d3617 : text := "           014003                                                                                                       ".
Definition d3618 : text := " 304011 27 002163                                                                                                       ".
Definition d3619 : text := "           002164                                                                                                       ".
Definition d3620 : text := "           007024                                                                                                       ".
Definition d3621 : text := "           002057                                                                                                       ".
Definition d3622 : text := "           004001                                                                                                       ".
Definition d3623 : text := "           110004                                                                                                       ".
Definition d3624 : text := "           103010                                                                                                       ".
Definition d3625 : text := "           002163                                                                                                       ".
Definition d3626 : text := " 304030  3 027031                                                                                                       ".
Definition d3627 : text := "           028031                                                                                                       ".
Definition d3628 : text := "           010031                                                                                                       ".
Definition d3629 : text := " 304031  3 001041                                                                                                       ".
Definition d3630 : text := "           001042                                                                                                       ".
Definition d3631 : text := "           001043                                                                                                       ".
Definition d3632 : text := " 304032  5 002153                                                                                                       ".
Definition d3633 : text := "           020081                                                                                                       ".
Definition d3634 : text := "           020082                                                                                                       ".
Definition d3635 : text := " 304033  8 002152                                                                                                       ".
Definition d3636 : text := "           002166                                                                                                       ".
Definition d3637 : text := "           002167                                                                                                       ".
Definition d3638 : text := "           012075                                                                                                       ".
Definition d3639 : text := "           012076                                                                                                       ".
Definition d3640 : text := " 304034  9 102004                                                                                                       ".
Definition d3641 : text := "           027001                                                                                                       ".
Definition d3642 : text := "           028001                                                                                                       ".
Definition d3643 : text := "           005043                                                                                                       ".
Definition d3644 : text := "           033003                                                                                                       ".
Definition d3645 : text := "           010040                                                                                                       ".
Definition d3646 : text := " 304228  3 005217                                                                                                       ".
Definition d3647 : text := "           006217                                                                                                       ".
Definition d3648 : text := "           007217                                                                                                       ".
Definition d3649 : text := " 304229  3 001208                                                                                                       ".
Definition d3650 : text := "           001209                                                                                                       ".
Definition d3651 : text := "           001210                                                                                                       ".
Definition d3652 : text := " 304250 27 002231                                                                                                       ".
Definition d3653 : text := "           002232                                                                                                       ".
Definition d3654 : text := "           002231                                                                                                       ".
Definition d3655 : text := " 305003  5 301012                                                                                                       ".
Definition d3656 : text := "           004065                                                                                                       ".
Definition d3657 : text := "           305001                                                                                                       ".
Definition d3658 : text := " 305006  6 013072                                                                                                       ".
Definition d3659 : text := "           013082                                                                                                       ".
Definition d3660 : text := "           013019                                                                                                       ".
Definition d3661 : text := "           013073                                                                                                       ".
Definition d3662 : text := "           013060                                                                                                       ".
Definition d3663 : text := " 305007  6 301029                                                                                                       ".
Definition d3664 : text := "           305006                                                                                                       ".
Definition d3665 : text := " 305008  2 305006                                                                                                       ".
Definition d3666 : text := "           012030                                                                                                       ".
Definition d3667 : text := " 305009  6 301029                                                                                                       ".
Definition d3668 : text := "           305008                                                                                                       ".
Definition d3669 : text := " 305011  6 301029                                                                                                       ".
Definition d3670 : text := "           305010                                                                                                       ".
Definition d3671 : text := " 305018  8 301029                                                                                                       ".
Definition d3672 : text := "           103000                                                                                                       ".
Definition d3673 : text := "           305016                                                                                                       ".
Definition d3674 : text := "           305017                                                                                                       ".
Definition d3675 : text := " 306001  5 002032                                                                                                       ".
Definition d3676 : text := "           102000                                                                                                       ".
Definition d3677 : text := "           007062                                                                                                       ".
Definition d3678 : text := "           022042                                                                                                       ".
Definition d3679 : text := " 306002  3 002031                                                                                                       ".
Definition d3680 : text := "           022004                                                                                                       ".
Definition d3681 : text := "           022031                                                                                                       ".
Definition d3682 : text := " 306003  4 002002                                                                                                       ".
Definition d3683 : text := "           011011                                                                                                       ".
Definition d3684 : text := " 306004  7 002032                                                                                                       ".
Definition d3685 : text := "           002033                                                                                                       ".
Definition d3686 : text := "           022043                                                                                                       ".
Definition d3687 : text := "           022062                                                                                                       ".
Definition d3688 : text := " 306005  6 002031                                                                                                       ".
Definition d3689 : text := " 306006  3 306003                                                                                                       ".
Definition d3690 : text := "           306002                                                                                                       ".
Definition d3691 : text := "           022063                                                                                                       ".
Definition d3692 : text := " 306007  6 001012                                                                                                       ".
Definition d3693 : text := "           306008                                                                                                       ".
Definition d3694 : text := "           027003                                                                                                       ".
Definition d3695 : text := "           028003                                                                                                       ".
Definition d3696 : text := " 306008  3 002034                                                                                                       ".
Definition d3697 : text := "           002035                                                                                                       ".
Definition d3698 : text := "           002036                                                                                                       ".
Definition d3699 : text := " 306020  4 306024                                                                                                       ".
Definition d3700 : text := "           102006                                                                                                       ".
Definition d3701 : text := "           022038                                                                                                       ".
Definition d3702 : text := "           022039                                                                                                       ".
Definition d3703 : text := " 306021  7 001075                                                                                                       ".
Definition d3704 : text := "           022122                                                                                                       ".
Definition d3705 : text := "           022123                                                                                                       ".
Definition d3706 : text := "           303002                                                                                                       ".
Definition d3707 : text := " 306022  5 001075                                                                                                       ".
Definition d3708 : text := " 306023  8 001015                                                                                                       ".
Definition d3709 : text := "           022120                                                                                                       ".
Definition d3710 : text := "           022121                                                                                                       ".
Definition d3711 : text := " 306024  8 001075                                                                                                       ".
Definition d3712 : text := "           004015                                                                                                       ".
Definition d3713 : text := " 307001  2 301031                                                                                                       ".
Definition d3714 : text := "           302011                                                                                                       ".
Definition d3715 : text := " 307002  2 301032                                                                                                       ".
Definition d3716 : text := " 307003  4 307001                                                                                                       ".
Definition d3717 : text := " 307004  4 307002                                                                                                       ".
Definition d3718 : text := " 307005  3 307001                                                                                                       ".
Definition d3719 : text := "           101004                                                                                                       ".
Definition d3720 : text := " 307006  3 307002                                                                                                       ".
Definition d3721 : text := " 307007  2 301031                                                                                                       ".
Definition d3722 : text := "           302012                                                                                                       ".
Definition d3723 : text := " 307008  2 301032                                                                                                       ".
Definition d3724 : text := " 307009  2 301031                                                                                                       ".
Definition d3725 : text := "           302013                                                                                                       ".
Definition d3726 : text := " 307011 16 001063                                                                                                       ".
Definition d3727 : text := "           007006                                                                                                       ".
Definition d3728 : text := "           010052                                                                                                       ".
Definition d3729 : text := "           020009                                                                                                       ".
Definition d3730 : text := " 307012  5 103000                                                                                                       ".
Definition d3731 : text := " 307013  8 106000                                                                                                       ".
Definition d3732 : text := "           001064                                                                                                       ".
Definition d3733 : text := "           008014                                                                                                       ".
Definition d3734 : text := "           020061                                                                                                       ".
Definition d3735 : text := "           020018                                                                                                       ".
Definition d3736 : text := " 307014  3 101000                                                                                                       ".
Definition d3737 : text := "           020019                                                                                                       ".
Definition d3738 : text := " 307015  8 101000                                                                                                       ".
Definition d3739 : text := "           020002                                                                                                       ".
Definition d3740 : text := " 307016  3 101000                                                                                                       ".
Definition d3741 : text := "           020020                                                                                                       ".
Definition d3742 : text := " 307017  3 101000                                                                                                       ".
Definition d3743 : text := "           011070                                                                                                       ".
Definition d3744 : text := " 307018 16 008016                                                                                                       ".
Definition d3745 : text := "           008017                                                                                                       ".
Definition d3746 : text := "           307014                                                                                                       ".
Definition d3747 : text := " 307020  3 307011                                                                                                       ".
Definition d3748 : text := "           307016                                                                                                       ".
Definition d3749 : text := " 307021  9 307011                                                                                                       ".
Definition d3750 : text := "           307012                                                                                                       ".
Definition d3751 : text := "           307013                                                                                                       ".
Definition d3752 : text := "           307015                                                                                                       ".
Definition d3753 : text := "           307017                                                                                                       ".
Definition d3754 : text := "           307018                                                                                                       ".
Definition d3755 : text := " 307022 31 001015                                                                                                       ".
Definition d3756 : text := "           033038                                                                                                       ".
Definition d3757 : text := "           008022                                                                                                       ".
Definition d3758 : text := "           106025                                                                                                       ".
Definition d3759 : text := "           001050                                                                                                       ".
Definition d3760 : text := "           015031                                                                                                       ".
Definition d3761 : text := "           015032                                                                                                       ".
Definition d3762 : text := "           008060                                                                                                       ".
Definition d3763 : text := "           015033                                                                                                       ".
Definition d3764 : text := "           015034                                                                                                       ".
Definition d3765 : text := "           015035                                                                                                       ".
Definition d3766 : text := "           201131                                                                                                       ".
Definition d3767 : text := "           015011                                                                                                       ".
Definition d3768 : text := " 307030  2 015001                                                                                                       ".
Definition d3769 : text := "           015002                                                                                                       ".
Definition d3770 : text := " 307031  7 008022                                                                                                       ".
Definition d3771 : text := "           015001                                                                                                       ".
Definition d3772 : text := " 307041  7 301001                                                                                                       ".
Definition d3773 : text := "           301070                                                                                                       ".
Definition d3774 : text := "           307030                                                                                                       ".
Definition d3775 : text := " 307042  9 301001                                                                                                       ".
Definition d3776 : text := "           307031                                                                                                       ".
Definition d3777 : text := " 307043  7 301001                                                                                                       ".
Definition d3778 : text := "           301074                                                                                                       ".
Definition d3779 : text := " 307063  2 007061                                                                                                       ".
Definition d3780 : text := "           012130                                                                                                       ".
Definition d3781 : text := " 308001  3 301033                                                                                                       ".
Definition d3782 : text := " 308002  3 301034                                                                                                       ".
Definition d3783 : text := " 308003  3 301035                                                                                                       ".
Definition d3784 : text := " 308004  3 301036                                                                                                       ".
Definition d3785 : text := " 308005  2 308004                                                                                                       ".
Definition d3786 : text := "           302024                                                                                                       ".
Definition d3787 : text := " 308006  8 010004                                                                                                       ".
Definition d3788 : text := " 308007  4 301055                                                                                                       ".
Definition d3789 : text := " 309001  4 301037                                                                                                       ".
Definition d3790 : text := "           303011                                                                                                       ".
Definition d3791 : text := " 309002  4 301038                                                                                                       ".
Definition d3792 : text := " 309003  4 301037                                                                                                       ".
Definition d3793 : text := "           303012                                                                                                       ".
Definition d3794 : text := " 309004  4 301038                                                                                                       ".
Definition d3795 : text := " 309005  5 301037                                                                                                       ".
Definition d3796 : text := "           303013                                                                                                       ".
Definition d3797 : text := " 309006  5 301038                                                                                                       ".
Definition d3798 : text := " 309007  5 301037                                                                                                       ".
Definition d3799 : text := "           303014                                                                                                       ".
Definition d3800 : text := " 309008  5 301038                                                                                                       ".
Definition d3801 : text := " 309011  4 301039                                                                                                       ".
Definition d3802 : text := " 309012  4 301039                                                                                                       ".
Definition d3803 : text := " 309013  5 301039                                                                                                       ".
Definition d3804 : text := " 309014  5 301039                                                                                                       ".
Definition d3805 : text := " 309015  4 301040                                                                                                       ".
Definition d3806 : text := " 309016  4 301040                                                                                                       ".
Definition d3807 : text := " 309017  5 301040                                                                                                       ".
Definition d3808 : text := " 309018  5 301040                                                                                                       ".
Definition d3809 : text := " 309019  5 301031                                                                                                       ".
Definition d3810 : text := " 309020  8 301031                                                                                                       ".
Definition d3811 : text := "           007003                                                                                                       ".
Definition d3812 : text := "           011003                                                                                                       ".
Definition d3813 : text := "           011004                                                                                                       ".
Definition d3814 : text := "           011005                                                                                                       ".
Definition d3815 : text := " 309030  8 015004                                                                                                       ".
Definition d3816 : text := "           015005                                                                                                       ".
Definition d3817 : text := "           008006                                                                                                       ".
Definition d3818 : text := "           015003                                                                                                       ".
Definition d3819 : text := " 309040  3 301075                                                                                                       ".
Definition d3820 : text := "           301076                                                                                                       ".
Definition d3821 : text := "           309030                                                                                                       ".
Definition d3822 : text := " 309042  4 307042                                                                                                       ".
Definition d3823 : text := "           301075                                                                                                       ".
Definition d3824 : text := " 309052 11 301111                                                                                                       ".
Definition d3825 : text := "           301113                                                                                                       ".
Definition d3826 : text := "           301114                                                                                                       ".
Definition d3827 : text := "           302049                                                                                                       ".
Definition d3828 : text := "           031002                                                                                                       ".
Definition d3829 : text := "           303054                                                                                                       ".
Definition d3830 : text := "           303051                                                                                                       ".
Definition d3831 : text := " 309194  5 301194                                                                                                       ".
Definition d3832 : text := " 309195  5 301195                                                                                                       ".
Definition d3833 : text := " 309196  5 301196                                                                                                       ".
Definition d3834 : text := " 310001  5 301042                                                                                                       ".
Definition d3835 : text := "           303031                                                                                                       ".
Definition d3836 : text := "           303032                                                                                                       ".
Definition d3837 : text := "           101026                                                                                                       ".
Definition d3838 : text := "           303025                                                                                                       ".
Definition d3839 : text := " 310002  5 301042                                                                                                       ".
Definition d3840 : text := "           101009                                                                                                       ".
Definition d3841 : text := "           303023                                                                                                       ".
Definition d3842 : text := " 310003  5 301042                                                                                                       ".
Definition d3843 : text := "           101006                                                                                                       ".
Definition d3844 : text := " 310004  5 301042                                                                                                       ".
Definition d3845 : text := "           101003                                                                                                       ".
Definition d3846 : text := "           303024                                                                                                       ".
Definition d3847 : text := " 310005  6 301042                                                                                                       ".
Definition d3848 : text := "           303033                                                                                                       ".
Definition d3849 : text := " 310006  6 301042                                                                                                       ".
Definition d3850 : text := " 310007  6 301042                                                                                                       ".
Definition d3851 : text := " 310008  8 310011                                                                                                       ".
Definition d3852 : text := "           101019                                                                                                       ".
Definition d3853 : text := "           310012                                                                                                       ".
Definition d3854 : text := "           002150                                                                                                       ".
Definition d3855 : text := "           025079                                                                                                       ".
Definition d3856 : text := "           025080                                                                                                       ".
Definition d3857 : text := "           033032                                                                                                       ".
Definition d3858 : text := "           014045                                                                                                       ".
Definition d3859 : text := " 310009  3 310011                                                                                                       ".
Definition d3860 : text := "           101015                                                                                                       ".
Definition d3861 : text := " 310010  3 310011                                                                                                       ".
Definition d3862 : text := "           101005                                                                                                       ".
Definition d3863 : text := " 310011 45 008070                                                                                                       ".
Definition d3864 : text := "           008070                                                                                                       ".
Definition d3865 : text := "           001007                                                                                                       ".
Definition d3866 : text := "           025075                                                                                                       ".
Definition d3867 : text := "           201133                                                                                                       ".
Definition d3868 : text := "           005041                                                                                                       ".
Definition d3869 : text := "           025070                                                                                                       ".
Definition d3870 : text := "           033030                                                                                                       ".
Definition d3871 : text := "           033031                                                                                                       ".
Definition d3872 : text := "           005001                                                                                                       ".
Definition d3873 : text := "           007025                                                                                                       ".
Definition d3874 : text := "           005022                                                                                                       ".
Definition d3875 : text := "           033033                                                                                                       ".
Definition d3876 : text := "           002151                                                                                                       ".
Definition d3877 : text := "           012064                                                                                                       ".
Definition d3878 : text := " 310012 10 002150                                                                                                       ".
Definition d3879 : text := "           025076                                                                                                       ".
Definition d3880 : text := "           025077                                                                                                       ".
Definition d3881 : text := "           025078                                                                                                       ".
Definition d3882 : text := "           201132                                                                                                       ".
Definition d3883 : text := " 310013 62 001007                                                                                                       ".
Definition d3884 : text := "           025085                                                                                                       ".
Definition d3885 : text := "           008072                                                                                                       ".
Definition d3886 : text := "           014027                                                                                                       ".
Definition d3887 : text := " 310014  3 301072                                                                                                       ".
Definition d3888 : text := "           303041                                                                                                       ".
Definition d3889 : text := "           304011                                                                                                       ".
Definition d3890 : text := " 310015 13 301072                                                                                                       ".
Definition d3891 : text := "           010002                                                                                                       ".
Definition d3892 : text := "           304032                                                                                                       ".
Definition d3893 : text := "           002152                                                                                                       ".
Definition d3894 : text := "           304033                                                                                                       ".
Definition d3895 : text := " 310016 13 301072                                                                                                       ".
Definition d3896 : text := "           101012                                                                                                       ".
Definition d3897 : text := " 310020  6 310022                                                                                                       ".
Definition d3898 : text := "           304034                                                                                                       ".
Definition d3899 : text := "           310021                                                                                                       ".
Definition d3900 : text := " 310021 10 108000                                                                                                       ".
Definition d3901 : text := "           015020                                                                                                       ".
Definition d3902 : text := " 310022  4 001007                                                                                                       ".
Definition d3903 : text := "           002019                                                                                                       ".
Definition d3904 : text := "           002172                                                                                                       ".
Definition d3905 : text := " 310023 17 301072                                                                                                       ".
Definition d3906 : text := "           030021                                                                                                       ".
Definition d3907 : text := "           030022                                                                                                       ".
Definition d3908 : text := "           105002                                                                                                       ".
Definition d3909 : text := " 310024 17 301072                                                                                                       ".
Definition d3910 : text := " 310025 61 001007                                                                                                       ".
Definition d3911 : text := "           201129                                                                                                       ".
Definition d3912 : text := "           005002                                                                                                       ".
Definition d3913 : text := "           013040                                                                                                       ".
Definition d3914 : text := "           020029                                                                                                       ".
Definition d3915 : text := "           104024                                                                                                       ".
Definition d3916 : text := "           005042                                                                                                       ".
Definition d3917 : text := "           012163                                                                                                       ".
Definition d3918 : text := "           021083                                                                                                       ".
Definition d3919 : text := "           021084                                                                                                       ".
Definition d3920 : text := "           115003                                                                                                       ".
Definition d3921 : text := "           201142                                                                                                       ".
Definition d3922 : text := "           004026                                                                                                       ".
Definition d3923 : text := "           012070                                                                                                       ".
Definition d3924 : text := "           025054                                                                                                       ".
Definition d3925 : text := "           025055                                                                                                       ".
Definition d3926 : text := "           008007                                                                                                       ".
Definition d3927 : text := "           104028                                                                                                       ".
Definition d3928 : text := " 310026 82 310022                                                                                                       ".
Definition d3929 : text := "           033039                                                                                                       ".
Definition d3930 : text := "           033007                                                                                                       ".
Definition d3931 : text := "           004016                                                                                                       ".
Definition d3932 : text := "           010035                                                                                                       ".
Definition d3933 : text := "           010036                                                                                                       ".
Definition d3934 : text := "           113000                                                                                                       ".
Definition d3935 : text := "           108000                                                                                                       ".
Definition d3936 : text := "           007040                                                                                                       ".
Definition d3937 : text := "           015037                                                                                                       ".
Definition d3938 : text := "           201125                                                                                                       ".
Definition d3939 : text := "           015036                                                                                                       ".
Definition d3940 : text := "           201123                                                                                                       ".
Definition d3941 : text := "           114000                                                                                                       ".
Definition d3942 : text := "           007009                                                                                                       ".
Definition d3943 : text := "           013001                                                                                                       ".
Definition d3944 : text := "           201120                                                                                                       ".
Definition d3945 : text := "           201122                                                                                                       ".
Definition d3946 : text := " 310029 12 110000                                                                                                       ".
Definition d3947 : text := "           013098                                                                                                       ".
Definition d3948 : text := " 310030  6 310022                                                                                                       ".
Definition d3949 : text := "           310029                                                                                                       ".
Definition d3950 : text := " 310050 14 310051                                                                                                       ".
Definition d3951 : text := "           310052                                                                                                       ".
Definition d3952 : text := "           310053                                                                                                       ".
Definition d3953 : text := "           310054                                                                                                       ".
Definition d3954 : text := " 310051 16 001007                                                                                                       ".
Definition d3955 : text := "           102009                                                                                                       ".
Definition d3956 : text := " 310052 12 002019                                                                                                       ".
Definition d3957 : text := " 310053  6 201134                                                                                                       ".
Definition d3958 : text := " 310054 13 201134                                                                                                       ".
Definition d3959 : text := " 310055  8 310051                                                                                                       ".
Definition d3960 : text := "           102020                                                                                                       ".
Definition d3961 : text := "           025051                                                                                                       ".
Definition d3962 : text := "           025050                                                                                                       ".
Definition d3963 : text := " 310193  5 301250                                                                                                       ".
Definition d3964 : text := "           303250                                                                                                       ".
Definition d3965 : text := "           302250                                                                                                       ".
Definition d3966 : text := "           303249                                                                                                       ".
Definition d3967 : text := "           303251                                                                                                       ".
Definition d3968 : text := " 310194  5 301250                                                                                                       ".
Definition d3969 : text := "           303252                                                                                                       ".
Definition d3970 : text := " 310195  3 301250                                                                                                       ".
Definition d3971 : text := "           304250                                                                                                       ".
Definition d3972 : text := " 310196  3 301250                                                                                                       ".
Definition d3973 : text := " 311001  9 301051                                                                                                       ".
Definition d3974 : text := "           007002                                                                                                       ".
Definition d3975 : text := "           011031                                                                                                       ".
Definition d3976 : text := "           011032                                                                                                       ".
Definition d3977 : text := "           011033                                                                                                       ".
Definition d3978 : text := "           020041                                                                                                       ".
Definition d3979 : text := " 311002  4 301065                                                                                                       ".
Definition d3980 : text := "           301066                                                                                                       ".
Definition d3981 : text := "           311003                                                                                                       ".
Definition d3982 : text := "           311004                                                                                                       ".
Definition d3983 : text := " 311003  5 010070                                                                                                       ".
Definition d3984 : text := "           013002                                                                                                       ".
Definition d3985 : text := " 311004 18 101000                                                                                                       ".
Definition d3986 : text := "           031000                                                                                                       ".
Definition d3987 : text := "           011034                                                                                                       ".
Definition d3988 : text := "           011035                                                                                                       ".
Definition d3989 : text := "           011075                                                                                                       ".
Definition d3990 : text := "           011076                                                                                                       ".
Definition d3991 : text := "           033025                                                                                                       ".
Definition d3992 : text := "           033026                                                                                                       ".
Definition d3993 : text := " 311005 13 001008                                                                                                       ".
Definition d3994 : text := "           001023                                                                                                       ".
Definition d3995 : text := "           007010                                                                                                       ".
Definition d3996 : text := "           008009                                                                                                       ".
Definition d3997 : text := "           011036                                                                                                       ".
Definition d3998 : text := " 311006  6 007010                                                                                                       ".
Definition d3999 : text := " 311193 16 301197                                                                                                       ".
Definition d4000 : text := " 312001  2 301043                                                                                                       ".
Definition d4001 : text := "           304001                                                                                                       ".
Definition d4002 : text := " 312002  2 301043                                                                                                       ".
Definition d4003 : text := "           304002                                                                                                       ".
Definition d4004 : text := " 312003  2 301042                                                                                                       ".
Definition d4005 : text := "           304003                                                                                                       ".
Definition d4006 : text := " 312004  2 301042                                                                                                       ".
Definition d4007 : text := "           304004                                                                                                       ".
Definition d4008 : text := " 312005  2 301042                                                                                                       ".
Definition d4009 : text := " 312006  2 301044                                                                                                       ".
Definition d4010 : text := "           304005                                                                                                       ".
Definition d4011 : text := " 312007  2 301042                                                                                                       ".
Definition d4012 : text := "           304006                                                                                                       ".
Definition d4013 : text := " 312010  6 001007                                                                                                       ".
Definition d4014 : text := "           004043                                                                                                       ".
Definition d4015 : text := " 312011  9 202131                                                                                                       ".
Definition d4016 : text := "           201149                                                                                                       ".
Definition d4017 : text := "           005053                                                                                                       ".
Definition d4018 : text := " 312012  6 202129                                                                                                       ".
Definition d4019 : text := " 312013  6 005042                                                                                                       ".
Definition d4020 : text := "           201135                                                                                                       ".
Definition d4021 : text := " 312014  8 312010                                                                                                       ".
Definition d4022 : text := "           312011                                                                                                       ".
Definition d4023 : text := "           105056                                                                                                       ".
Definition d4024 : text := "           005052                                                                                                       ".
Definition d4025 : text := "           312012                                                                                                       ".
Definition d4026 : text := "           312013                                                                                                       ".
Definition d4027 : text := " 312015 10 109011                                                                                                       ".
Definition d4028 : text := " 312016  3 312010                                                                                                       ".
Definition d4029 : text := "           312015                                                                                                       ".
Definition d4030 : text := " 312017 10 109008                                                                                                       ".
Definition d4031 : text := " 312018  3 312010                                                                                                       ".
Definition d4032 : text := "           312017                                                                                                       ".
Definition d4033 : text := " 312019 13 301047                                                                                                       ".
Definition d4034 : text := "           301048                                                                                                       ".
Definition d4035 : text := "           015015                                                                                                       ".
Definition d4036 : text := "           029002                                                                                                       ".
Definition d4037 : text := "           021076                                                                                                       ".
Definition d4038 : text := "           106012                                                                                                       ".
Definition d4039 : text := "           006030                                                                                                       ".
Definition d4040 : text := "           102012                                                                                                       ".
Definition d4041 : text := "           005030                                                                                                       ".
Definition d4042 : text := "           021075                                                                                                       ".
Definition d4043 : text := "           021066                                                                                                       ".
Definition d4044 : text := " 312020 11 301047                                                                                                       ".
Definition d4045 : text := "           104012                                                                                                       ".
Definition d4046 : text := " 312021  6 301047                                                                                                       ".
Definition d4047 : text := "           301049                                                                                                       ".
Definition d4048 : text := "           021067                                                                                                       ".
Definition d4049 : text := " 312022 15 301047                                                                                                       ".
Definition d4050 : text := "           011050                                                                                                       ".
Definition d4051 : text := "           022070                                                                                                       ".
Definition d4052 : text := "           022026                                                                                                       ".
Definition d4053 : text := "           312041                                                                                                       ".
Definition d4054 : text := "           010050                                                                                                       ".
Definition d4055 : text := "           021068                                                                                                       ".
Definition d4056 : text := "           021071                                                                                                       ".
Definition d4057 : text := "           021072                                                                                                       ".
Definition d4058 : text := "           021073                                                                                                       ".
Definition d4059 : text := "           312042                                                                                                       ".
Definition d4060 : text := " 312023  7 301047                                                                                                       ".
Definition d4061 : text := "           103003                                                                                                       ".
Definition d4062 : text := "           022050                                                                                                       ".
Definition d4063 : text := "           021069                                                                                                       ".
Definition d4064 : text := "           021085                                                                                                       ".
Definition d4065 : text := " 312024 11 312020                                                                                                       ".
Definition d4066 : text := "           025014                                                                                                       ".
Definition d4067 : text := "           022101                                                                                                       ".
Definition d4068 : text := "           022097                                                                                                       ".
Definition d4069 : text := "           022098                                                                                                       ".
Definition d4070 : text := "           022099                                                                                                       ".
Definition d4071 : text := "           022100                                                                                                       ".
Definition d4072 : text := " 312025 11 312019                                                                                                       ".
Definition d4073 : text := " 312026 19 301046                                                                                                       ".
Definition d4074 : text := "           312031                                                                                                       ".
Definition d4075 : text := "           312030                                                                                                       ".
Definition d4076 : text := "           021110                                                                                                       ".
Definition d4077 : text := "           321027                                                                                                       ".
Definition d4078 : text := "           021111                                                                                                       ".
Definition d4079 : text := "           021112                                                                                                       ".
Definition d4080 : text := "           021113                                                                                                       ".
Definition d4081 : text := " 312027  9 301047                                                                                                       ".
Definition d4082 : text := "           105009                                                                                                       ".
Definition d4083 : text := "           021070                                                                                                       ".
Definition d4084 : text := " 312028 26 301046                                                                                                       ".
Definition d4085 : text := "           008025                                                                                                       ".
Definition d4086 : text := "           201136                                                                                                       ".
Definition d4087 : text := "           312032                                                                                                       ".
Definition d4088 : text := "           312033                                                                                                       ".
Definition d4089 : text := "           321028                                                                                                       ".
Definition d4090 : text := " 312030 13 201130                                                                                                       ".
Definition d4091 : text := "           011052                                                                                                       ".
Definition d4092 : text := "           011053                                                                                                       ".
Definition d4093 : text := "           021104                                                                                                       ".
Definition d4094 : text := " 312031  8 005034                                                                                                       ".
Definition d4095 : text := "           006034                                                                                                       ".
Definition d4096 : text := "           021109                                                                                                       ".
Definition d4097 : text := "           011081                                                                                                       ".
Definition d4098 : text := "           011082                                                                                                       ".
Definition d4099 : text := "           021101                                                                                                       ".
Definition d4100 : text := "           021102                                                                                                       ".
Definition d4101 : text := "           021103                                                                                                       ".
Definition d4102 : text := " 312032  4 021120                                                                                                       ".
Definition d4103 : text := "           021121                                                                                                       ".
Definition d4104 : text := "           021122                                                                                                       ".
Definition d4105 : text := " 312033  4 002104                                                                                                       ".
Definition d4106 : text := "           012065                                                                                                       ".
Definition d4107 : text := " 312041  5 201141                                                                                                       ".
Definition d4108 : text := " 312042  6 021077                                                                                                       ".
Definition d4109 : text := "           021078                                                                                                       ".
Definition d4110 : text := "           021079                                                                                                       ".
Definition d4111 : text := "           021080                                                                                                       ".
Definition d4112 : text := "           021081                                                                                                       ".
Definition d4113 : text := "           021082                                                                                                       ".
Definition d4114 : text := " 312045 21 001007                                                                                                       ".
Definition d4115 : text := "           001096                                                                                                       ".
Definition d4116 : text := "           025061                                                                                                       ".
Definition d4117 : text := "           012180                                                                                                       ".
Definition d4118 : text := "           012181                                                                                                       ".
Definition d4119 : text := "           012182                                                                                                       ".
Definition d4120 : text := "           012183                                                                                                       ".
Definition d4121 : text := "           012184                                                                                                       ".
Definition d4122 : text := "           012185                                                                                                       ".
Definition d4123 : text := "           002174                                                                                                       ".
Definition d4124 : text := "           021086                                                                                                       ".
Definition d4125 : text := "           012186                                                                                                       ".
Definition d4126 : text := "           021087                                                                                                       ".
Definition d4127 : text := "           012187                                                                                                       ".
Definition d4128 : text := "           033043                                                                                                       ".
Definition d4129 : text := " 312050 23 001007                                                                                                       ".
Definition d4130 : text := "           010080                                                                                                       ".
Definition d4131 : text := "           027080                                                                                                       ".
Definition d4132 : text := "           013093                                                                                                       ".
Definition d4133 : text := "           013095                                                                                                       ".
Definition d4134 : text := " 312051 48 001007                                                                                                       ".
Definition d4135 : text := "           008075                                                                                                       ".
Definition d4136 : text := "           010032                                                                                                       ".
Definition d4137 : text := "           010033                                                                                                       ".
Definition d4138 : text := "           010034                                                                                                       ".
Definition d4139 : text := "           025110                                                                                                       ".
Definition d4140 : text := "           025111                                                                                                       ".
Definition d4141 : text := "           025102                                                                                                       ".
Definition d4142 : text := "           002104                                                                                                       ".
Definition d4143 : text := "           025103                                                                                                       ".
Definition d4144 : text := "           025104                                                                                                       ".
Definition d4145 : text := "           025105                                                                                                       ".
Definition d4146 : text := "           025106                                                                                                       ".
Definition d4147 : text := "           025107                                                                                                       ".
Definition d4148 : text := "           025108                                                                                                       ".
Definition d4149 : text := "           021130                                                                                                       ".
Definition d4150 : text := "           021131                                                                                                       ".
Definition d4151 : text := "           021132                                                                                                       ".
Definition d4152 : text := "           021133                                                                                                       ".
Definition d4153 : text := "           021134                                                                                                       ".
Definition d4154 : text := "           107018                                                                                                       ".
Definition d4155 : text := "           105024                                                                                                       ".
Definition d4156 : text := "           021135                                                                                                       ".
Definition d4157 : text := "           021136                                                                                                       ".
Definition d4158 : text := "           033044                                                                                                       ".
Definition d4159 : text := " 312052 77 001007                                                                                                       ".
Definition d4160 : text := "           025120                                                                                                       ".
Definition d4161 : text := "           025121                                                                                                       ".
Definition d4162 : text := "           025124                                                                                                       ".
Definition d4163 : text := "           025125                                                                                                       ".
Definition d4164 : text := "           025122                                                                                                       ".
Definition d4165 : text := "           025123                                                                                                       ".
Definition d4166 : text := "           002119                                                                                                       ".
Definition d4167 : text := "           033047                                                                                                       ".
Definition d4168 : text := "           010081                                                                                                       ".
Definition d4169 : text := "           010082                                                                                                       ".
Definition d4170 : text := "           010083                                                                                                       ".
Definition d4171 : text := "           010084                                                                                                       ".
Definition d4172 : text := "           002116                                                                                                       ".
Definition d4173 : text := "           002117                                                                                                       ".
Definition d4174 : text := "           002118                                                                                                       ".
Definition d4175 : text := "           002156                                                                                                       ".
Definition d4176 : text := "           002157                                                                                                       ".
Definition d4177 : text := "           014055                                                                                                       ".
Definition d4178 : text := "           022150                                                                                                       ".
Definition d4179 : text := "           022151                                                                                                       ".
Definition d4180 : text := "           022152                                                                                                       ".
Definition d4181 : text := "           022153                                                                                                       ".
Definition d4182 : text := "           022154                                                                                                       ".
Definition d4183 : text := "           022155                                                                                                       ".
Definition d4184 : text := "           022156                                                                                                       ".
Definition d4185 : text := "           022157                                                                                                       ".
Definition d4186 : text := "           022158                                                                                                       ".
Definition d4187 : text := "           022159                                                                                                       ".
Definition d4188 : text := "           021137                                                                                                       ".
Definition d4189 : text := "           021138                                                                                                       ".
Definition d4190 : text := "           021139                                                                                                       ".
Definition d4191 : text := "           021140                                                                                                       ".
Definition d4192 : text := "           021141                                                                                                       ".
Definition d4193 : text := "           021142                                                                                                       ".
Definition d4194 : text := "           010085                                                                                                       ".
Definition d4195 : text := "           010086                                                                                                       ".
Definition d4196 : text := "           010087                                                                                                       ".
Definition d4197 : text := "           010088                                                                                                       ".
Definition d4198 : text := "           010089                                                                                                       ".
Definition d4199 : text := "           010090                                                                                                       ".
Definition d4200 : text := "           010091                                                                                                       ".
Definition d4201 : text := "           010092                                                                                                       ".
Definition d4202 : text := "           010093                                                                                                       ".
Definition d4203 : text := "           025126                                                                                                       ".
Definition d4204 : text := "           025127                                                                                                       ".
Definition d4205 : text := "           025128                                                                                                       ".
Definition d4206 : text := "           025129                                                                                                       ".
Definition d4207 : text := "           025130                                                                                                       ".
Definition d4208 : text := "           025131                                                                                                       ".
Definition d4209 : text := "           025132                                                                                                       ".
Definition d4210 : text := "           025133                                                                                                       ".
Definition d4211 : text := "           025134                                                                                                       ".
Definition d4212 : text := "           025135                                                                                                       ".
Definition d4213 : text := "           025136                                                                                                       ".
Definition d4214 : text := "           025137                                                                                                       ".
Definition d4215 : text := "           013096                                                                                                       ".
Definition d4216 : text := "           013097                                                                                                       ".
Definition d4217 : text := "           011095                                                                                                       ".
Definition d4218 : text := "           011096                                                                                                       ".
Definition d4219 : text := "           012188                                                                                                       ".
Definition d4220 : text := "           012189                                                                                                       ".
Definition d4221 : text := "           002158                                                                                                       ".
Definition d4222 : text := "           002159                                                                                                       ".
Definition d4223 : text := "           033052                                                                                                       ".
Definition d4224 : text := "           033053                                                                                                       ".
Definition d4225 : text := "           021143                                                                                                       ".
Definition d4226 : text := "           021144                                                                                                       ".
Definition d4227 : text := " 312053 54 001007                                                                                                       ".
Definition d4228 : text := "           022160                                                                                                       ".
Definition d4229 : text := "           025138                                                                                                       ".
Definition d4230 : text := "           033048                                                                                                       ".
Definition d4231 : text := "           033049                                                                                                       ".
Definition d4232 : text := "           106036                                                                                                       ".
Definition d4233 : text := "           022161                                                                                                       ".
Definition d4234 : text := " 312200 10 301237                                                                                                       ".
Definition d4235 : text := "           301238                                                                                                       ".
Definition d4236 : text := "           021206                                                                                                       ".
Definition d4237 : text := "           006232                                                                                                       ".
Definition d4238 : text := "           005232                                                                                                       ".
Definition d4239 : text := "           021205                                                                                                       ".
Definition d4240 : text := "           021196                                                                                                       ".
Definition d4241 : text := " 312201  6 301237                                                                                                       ".
Definition d4242 : text := "           301239                                                                                                       ".
Definition d4243 : text := "           021197                                                                                                       ".
Definition d4244 : text := " 312202 13 301237                                                                                                       ".
Definition d4245 : text := "           301240                                                                                                       ".
Definition d4246 : text := "           022243                                                                                                       ".
Definition d4247 : text := "           301241                                                                                                       ".
Definition d4248 : text := "           021198                                                                                                       ".
Definition d4249 : text := "           021201                                                                                                       ".
Definition d4250 : text := "           021202                                                                                                       ".
Definition d4251 : text := "           021203                                                                                                       ".
Definition d4252 : text := "           301242                                                                                                       ".
Definition d4253 : text := " 312203  8 301237                                                                                                       ".
Definition d4254 : text := "           021204                                                                                                       ".
Definition d4255 : text := "           021199                                                                                                       ".
Definition d4256 : text := "           021214                                                                                                       ".
Definition d4257 : text := "           021215                                                                                                       ".
Definition d4258 : text := " 312204 12 312201                                                                                                       ".
Definition d4259 : text := "           021200                                                                                                       ".
Definition d4260 : text := "           021213                                                                                                       ".
Definition d4261 : text := "           055003                                                                                                       ".
Definition d4262 : text := " 312207  3 312202                                                                                                       ".
Definition d4263 : text := "           301202                                                                                                       ".
Definition d4264 : text := "           033191                                                                                                       ".
Definition d4265 : text := " 312208 17 301202                                                                                                       ".
Definition d4266 : text := "           302205                                                                                                       ".
Definition d4267 : text := "           001192                                                                                                       ".
Definition d4268 : text := " 312209 11 301202                                                                                                       ".
Definition d4269 : text := "           302206                                                                                                       ".
Definition d4270 : text := "           022192                                                                                                       ".
Definition d4271 : text := "           022191                                                                                                       ".
Definition d4272 : text := " 312210 13 312202                                                                                                       ".
Definition d4273 : text := "           015202                                                                                                       ".
Definition d4274 : text := "           304228                                                                                                       ".
Definition d4275 : text := "           304229                                                                                                       ".
Definition d4276 : text := " 312211 19 301046                                                                                                       ".
Definition d4277 : text := "           312212                                                                                                       ".
Definition d4278 : text := " 312212  2 301023                                                                                                       ".
Definition d4279 : text := " 313009  4 021001                                                                                                       ".
Definition d4280 : text := "           021001                                                                                                       ".
Definition d4281 : text := " 313010  4 021036                                                                                                       ".
Definition d4282 : text := "           021036                                                                                                       ".
Definition d4283 : text := " 313031  5 006002                                                                                                       ".
Definition d4284 : text := "           006012                                                                                                       ".
Definition d4285 : text := "           030001                                                                                                       ".
Definition d4286 : text := " 313032  5 005002                                                                                                       ".
Definition d4287 : text := "           005012                                                                                                       ".
Definition d4288 : text := "           313031                                                                                                       ".
Definition d4289 : text := " 313041 13 006002                                                                                                       ".
Definition d4290 : text := "           110000                                                                                                       ".
Definition d4291 : text := "           031012                                                                                                       ".
Definition d4292 : text := " 313042  5 005002                                                                                                       ".
Definition d4293 : text := "           313041                                                                                                       ".
Definition d4294 : text := " 313043 16 006002                                                                                                       ".
Definition d4295 : text := "           112000                                                                                                       ".
Definition d4296 : text := "           031011                                                                                                       ".
Definition d4297 : text := " 315001  5 001011                                                                                                       ".
Definition d4298 : text := "           306001                                                                                                       ".
Definition d4299 : text := " 315002  5 001011                                                                                                       ".
Definition d4300 : text := "           306004                                                                                                       ".
Definition d4301 : text := " 316001 10 301011                                                                                                       ".
Definition d4302 : text := "           001021                                                                                                       ".
Definition d4303 : text := "           002041                                                                                                       ".
Definition d4304 : text := "           019001                                                                                                       ".
Definition d4305 : text := "           019002                                                                                                       ".
Definition d4306 : text := "           019003                                                                                                       ".
Definition d4307 : text := "           019004                                                                                                       ".
Definition d4308 : text := " 316002 15 008021                                                                                                       ".
Definition d4309 : text := " 316003 12 110000                                                                                                       ".
Definition d4310 : text := "           008011                                                                                                       ".
Definition d4311 : text := " 316004 13 111000                                                                                                       ".
Definition d4312 : text := " 316005 10 108000                                                                                                       ".
Definition d4313 : text := "           008005                                                                                                       ".
Definition d4314 : text := "           001026                                                                                                       ".
Definition d4315 : text := " 316006 14 112000                                                                                                       ".
Definition d4316 : text := " 316007 12 110000                                                                                                       ".
Definition d4317 : text := "           019005                                                                                                       ".
Definition d4318 : text := "           019006                                                                                                       ".
Definition d4319 : text := " 316008 13 111000                                                                                                       ".
Definition d4320 : text := " 316009 13 111000                                                                                                       ".
Definition d4321 : text := " 316010  9 107000                                                                                                       ".
Definition d4322 : text := "           001022                                                                                                       ".
Definition d4323 : text := " 316011 19 116000                                                                                                       ".
Definition d4324 : text := "           020090                                                                                                       ".
Definition d4325 : text := " 316022 24 001032                                                                                                       ".
Definition d4326 : text := "           019010                                                                                                       ".
Definition d4327 : text := "           118000                                                                                                       ".
Definition d4328 : text := "           004014                                                                                                       ".
Definition d4329 : text := "           004075                                                                                                       ".
Definition d4330 : text := "           011040                                                                                                       ".
Definition d4331 : text := "           019008                                                                                                       ".
Definition d4332 : text := " 318001  2 301025                                                                                                       ".
Definition d4333 : text := "           024011                                                                                                       ".
Definition d4334 : text := " 318003  4 301026                                                                                                       ".
Definition d4335 : text := "           024005                                                                                                       ".
Definition d4336 : text := "           024004                                                                                                       ".
Definition d4337 : text := "           024021                                                                                                       ".
Definition d4338 : text := " 318004  6 301025                                                                                                       ".
Definition d4339 : text := "           004023                                                                                                       ".
Definition d4340 : text := "           024022                                                                                                       ".
Definition d4341 : text := " 321001  6 002101                                                                                                       ".
Definition d4342 : text := "           002114                                                                                                       ".
Definition d4343 : text := "           002105                                                                                                       ".
Definition d4344 : text := "           002106                                                                                                       ".
Definition d4345 : text := "           002107                                                                                                       ".
Definition d4346 : text := " 321003  4 021051                                                                                                       ".
Definition d4347 : text := "           021014                                                                                                       ".
Definition d4348 : text := "           021017                                                                                                       ".
Definition d4349 : text := "           021030                                                                                                       ".
Definition d4350 : text := " 321004  5 301031                                                                                                       ".
Definition d4351 : text := "           321003                                                                                                       ".
Definition d4352 : text := " 321005 12 025004                                                                                                       ".
Definition d4353 : text := "           002122                                                                                                       ".
Definition d4354 : text := "           002123                                                                                                       ".
Definition d4355 : text := "           002124                                                                                                       ".
Definition d4356 : text := "           002125                                                                                                       ".
Definition d4357 : text := "           002126                                                                                                       ".
Definition d4358 : text := "           002127                                                                                                       ".
Definition d4359 : text := "           002128                                                                                                       ".
Definition d4360 : text := "           002129                                                                                                       ".
Definition d4361 : text := "           002130                                                                                                       ".
Definition d4362 : text := "           002131                                                                                                       ".
Definition d4363 : text := " 321006  4 025001                                                                                                       ".
Definition d4364 : text := "           025002                                                                                                       ".
Definition d4365 : text := "           025003                                                                                                       ".
Definition d4366 : text := "           025005                                                                                                       ".
Definition d4367 : text := " 321007  8 025009                                                                                                       ".
Definition d4368 : text := "           025011                                                                                                       ".
Definition d4369 : text := "           025012                                                                                                       ".
Definition d4370 : text := "           025013                                                                                                       ".
Definition d4371 : text := "           025015                                                                                                       ".
Definition d4372 : text := "           025016                                                                                                       ".
Definition d4373 : text := "           025017                                                                                                       ".
Definition d4374 : text := " 321008  3 025006                                                                                                       ".
Definition d4375 : text := "           025007                                                                                                       ".
Definition d4376 : text := "           025008                                                                                                       ".
Definition d4377 : text := " 321009  2 025018                                                                                                       ".
Definition d4378 : text := "           025019                                                                                                       ".
Definition d4379 : text := " 321010 13 002101                                                                                                       ".
Definition d4380 : text := "           002102                                                                                                       ".
Definition d4381 : text := "           002103                                                                                                       ".
Definition d4382 : text := "           002108                                                                                                       ".
Definition d4383 : text := "           002109                                                                                                       ".
Definition d4384 : text := "           002110                                                                                                       ".
Definition d4385 : text := "           002132                                                                                                       ".
Definition d4386 : text := "           002133                                                                                                       ".
Definition d4387 : text := " 321011  3 030031                                                                                                       ".
Definition d4388 : text := "           030032                                                                                                       ".
Definition d4389 : text := " 321012  3 101000                                                                                                       ".
Definition d4390 : text := "           002135                                                                                                       ".
Definition d4391 : text := " 321021 15 002003                                                                                                       ".
Definition d4392 : text := "           002101                                                                                                       ".
Definition d4393 : text := "           025001                                                                                                       ".
Definition d4394 : text := " 321022 11 010007                                                                                                       ".
Definition d4395 : text := "           204001                                                                                                       ".
Definition d4396 : text := "           011006                                                                                                       ".
Definition d4397 : text := " 321023  9 007007                                                                                                       ".
Definition d4398 : text := "           021091                                                                                                       ".
Definition d4399 : text := " 321024  7 007007                                                                                                       ".
Definition d4400 : text := "           204002                                                                                                       ".
Definition d4401 : text := "           012007                                                                                                       ".
Definition d4402 : text := " 321025 17 007007                                                                                                       ".
Definition d4403 : text := "           021092                                                                                                       ".
Definition d4404 : text := "           025092                                                                                                       ".
Definition d4405 : text := " 321026 10 010007                                                                                                       ".
Definition d4406 : text := "           025091                                                                                                       ".
Definition d4407 : text := "           011071                                                                                                       ".
Definition d4408 : text := "           011072                                                                                                       ".
Definition d4409 : text := "           011073                                                                                                       ".
Definition d4410 : text := "           011074                                                                                                       ".
Definition d4411 : text := " 321027 18 021118                                                                                                       ".
Definition d4412 : text := "           021105                                                                                                       ".
Definition d4413 : text := "           021106                                                                                                       ".
Definition d4414 : text := "           021107                                                                                                       ".
Definition d4415 : text := "           021114                                                                                                       ".
Definition d4416 : text := "           021115                                                                                                       ".
Definition d4417 : text := "           021116                                                                                                       ".
Definition d4418 : text := "           008018                                                                                                       ".
Definition d4419 : text := "           021117                                                                                                       ".
Definition d4420 : text := " 321028 18 021118                                                                                                       ".
Definition d4421 : text := "           021123                                                                                                       ".
Definition d4422 : text := " 340010 103 001007".
Definition d4423 : text := " 340211 78 001007".
Definition d4424 : text := "           022193".
Definition d4425 : text := " 340192 51 001007".
Definition d4426 : text := "           005234".
Definition d4427 : text := "           005236".
Definition d4428 : text := "           005237".
Definition d4429 : text := "           040214".
Definition d4430 : text := "           008201".
Definition d4431 : text := "           007200".
Definition d4432 : text := "           040215".
Definition d4433 : text := "           040216".
Definition d4434 : text := "           040217".
Definition d4435 : text := "           040218".
Definition d4436 : text := "           025192".
Definition d4437 : text := "           040219".
Definition d4438 : text := "           040220".
Definition d4439 : text := "           040221".
Definition d4440 : text := "           040222".
Definition d4441 : text := " 310195  3 310196".
Definition d4442 : text := "           310197".
Definition d4443 : text := " 310196 46 008070".
Definition d4444 : text := "           033210".
Definition d4445 : text := "           033211".
Definition d4446 : text := "           033213".
Definition d4447 : text := " 310197 13 002150".
Definition d4448 : text := "           033214".
Definition d4449 : text := "           033215".
Definition d4450 : text := " 315004 47 022176".
Definition d4451 : text := " 350254 52 001007".
Definition d4452 : text := "           109004".
Definition d4453 : text := " 301194  8 001194                                                                                                       ".
Definition d4454 : text := " 301195  8 001195                                                                                                       ".
Definition d4455 : text := " 301237  6 001007                                                                                                       ".
Definition d4456 : text := " 309018  5 301031                                                                                                       ".
Definition d4457 : text := " 309019  8 301031                                                                                                       ".
Definition d4458 : text := "           102032                                                                                                       ".
Definition d4459 : text := " 312013  6 005033                                                                                                       ".
Definition d4460 : text := " 312203  6 301237                                                                                                       ".
Definition d4461 : text := " 312204 11 312201                                                                                                       ".
Definition d4462 : text := "           008222                                                                                                       ".
Definition d4463 : text := " 313041 10 006002                                                                                                       ".
Definition d4464 : text := "           106000                                                                                                       ".
Definition d4465 : text := "           025030                                                                                                       ".
Definition d4466 : text := "           312018                                                                                                       ".
Definition d4467 : text := " 301046 10 001007   SeaWinds header information::SATELLITE IDENTIFIER".
Definition d4468 : text := "           001012                                DIRECTION OF MOTION OF MOVING OBSERVING PLATFORM".
Definition d4469 : text := "           002048                                SATELLITE SENSOR INDICATOR".
Definition d4470 : text := "           021119                             WIND SCATTEROMETER GEOPHYSICAL MODEL FUNCTION".
Definition d4471 : text := "           025060                             SOFTWARE INDENTIFICATION".
Definition d4472 : text := "           202124                                *** decrease scaling by 10^4".
Definition d4473 : text := "           002026                                ALONG TRACK RESOLUTION".
Definition d4474 : text := "           002027                                CROSS TRACK RESOLUTION".
Definition d4475 : text := "           202000                                *** cancel change scaling".
Definition d4476 : text := "           005040                                ORBIT NUMBER".
Definition d4477 : text := " 301071  4 002143".
Definition d4478 : text := " 307018 18 008016                                                                                                       ".
Definition d4479 : text := "           002150 ".
Definition d4480 : text := " 310013 62 001007   Satellite ID".
Definition d4481 : text := "           005040   Orbit number".
Definition d4482 : text := "           004001   Year".
Definition d4483 : text := "           004002   Month".
Definition d4484 : text := "           004003   Day".
Definition d4485 : text := "           004004   Hour".
Definition d4486 : text := "           004005   Minute".
Definition d4487 : text := "           004006   Second".
Definition d4488 : text := "           005001   Latitude".
Definition d4489 : text := "           006001   Longitude".
Definition d4490 : text := "           007025   Solar zenith angle".
Definition d4491 : text := "           005043   Field of view number".
Definition d4492 : text := "           025085   Fraction of clear pixels in HIRS field of view".
Definition d4493 : text := "           201131   Change width".
Definition d4494 : text := "           202129   Change scale".
Definition d4495 : text := "           002150   TOVS/ATOVS/AVHRR instrumentation channel number".
Definition d4496 : text := "           008023   First order statistics".
Definition d4497 : text := "           008072   Pixel(s) type".
Definition d4498 : text := "           014027   Albedo".
Definition d4499 : text := "           002150   ATOVS/AVHRR instrumentation channel number".
Definition d4500 : text := "           202000   Change scale".
Definition d4501 : text := "           201000   Change width".
Definition d4502 : text := "           201132   Change width".
Definition d4503 : text := "           012063   Brightness temperature".
Definition d4504 : text := " 310014  3 301072   Satellite geostationary wind data".
Definition d4505 : text := " 310015 13 301072   Meteosat radiance data".
Definition d4506 : text := " 310016 13 301072 Meteosat second generation radiance data".
Definition d4507 : text := " 312026 19 301046   SeaWinds 25km data::SeaWinds header information".
Definition d4508 : text := "           301011                       Date information".
Definition d4509 : text := "           301013                       Time information".
Definition d4510 : text := "           301023                       Position information".
Definition d4511 : text := "           312031                       SeaWinds WVC information".
Definition d4512 : text := "           101004                       *** replicate 1 descriptor 4 times".
Definition d4513 : text := "           312030                       SeaWinds ambiguous wind data".
Definition d4514 : text := "           021110                       NUMBER OF INNER-BEAM SIGMA-0 (FORWARD OF SATELLITE)".
Definition d4515 : text := "           321027                       SeaWinds Sigma-0 data".
Definition d4516 : text := "           021111                       NUMBER OF OUTER-BEAM SIGMA-0 (FORWARD OF SATELLITE)".
Definition d4517 : text := "           021112                       NUMBER OF INNER-BEAM SIGMA-0 (AFT OF SATELLITE)".
Definition d4518 : text := "           021113                       NUMBER OF OUTER-BEAM SIGMA-0 (AFT OF SATELLITE)".
Definition d4519 : text := " 312030 13 201130   SeaWinds ambiguous wind data::*** increase data width by 2 bits".
Definition d4520 : text := "           202129                                 *** increase scaling by 10^1".
Definition d4521 : text := "           011012                                 WIND SPEED AT 10 M".
Definition d4522 : text := "           202000                                 *** cancel change scaling".
Definition d4523 : text := "           201000                                 *** cancel change data width".
Definition d4524 : text := "           011052                                 FORMAL UNCERTAINTY IN WIND SPEED".
Definition d4525 : text := "           201135                                 *** increase data width by 7 bits".
Definition d4526 : text := "           202130                                 *** increase scaling by 10^2".
Definition d4527 : text := "           011011                                 WIND DIRECTION AT 10 M".
Definition d4528 : text := "           011053                                 FORMAL UNCERTAINTY IN WIND DIRECTION".
Definition d4529 : text := "           021104                                 LIKELIHOOD COMPUTED FOR SOLUTION".
Definition d4530 : text := " 312031  8 005034   SeaWinds WVC information::ALONG TRACK ROW NUMBER".
Definition d4531 : text := "           006034                             CROSS TRACK CELL NUMBER".
Definition d4532 : text := "           021109                             QSCAT WIND VECTOR CELL QUALITY FLAG".
Definition d4533 : text := "           011081                             MODEL WIND DIRECTION AT 10 M".
Definition d4534 : text := "           011082                             MODEL WIND SPEED AT 10 M".
Definition d4535 : text := "           021101                             NUMBER OF VECTOR AMBIGUITIES".
Definition d4536 : text := "           021102                             INDEX OF SELECTED WIND VECTOR".
Definition d4537 : text := "           021103                             TOTAL NUMBER OF SIGMA-0 MEASUREMENTS".
Definition d4538 : text := " 312211 19 301046      SeaWinds 50km data::SeaWinds header information".
Definition d4539 : text := "           301011               Date information".
Definition d4540 : text := "           301013               Time information".
Definition d4541 : text := "           301023               Position information".
Definition d4542 : text := "           312031               SeaWinds WVC information".
Definition d4543 : text := "           101004               *** replicate 1 descriptor 4 times".
Definition d4544 : text := "           312030               SeaWinds ambiguous wind data".
Definition d4545 : text := "           021110               NUMBER OF INNER-BEAM SIGMA-0 (FORWARD OF SATELLITE)".
Definition d4546 : text := "           312212                       SeaWinds Sigma-0 position and data".
Definition d4547 : text := "           021111               NUMBER OF OUTER-BEAM SIGMA-0 (FORWARD OF SATELLITE)".
Definition d4548 : text := "           021112               NUMBER OF INNER-BEAM SIGMA-0 (AFT OF SATELLITE)".
Definition d4549 : text := "           021113               NUMBER OF OUTER-BEAM SIGMA-0 (AFT OF SATELLITE)".
Definition d4550 : text := " 316011 19 116000".
Definition d4551 : text := " 321022 11 010007".
Definition d4552 : text := " 321026 10 010007".
Definition d4553 : text := " 321027 18 021118   SeaWinds Sigma-0 data::ATTENUATION CORRECTION ON SIGMA-0".
Definition d4554 : text := "           202129                          *** increase scaling by 10^1".
Definition d4555 : text := "           201132                          *** increase data width by 4 bits".
Definition d4556 : text := "           002112                          RADAR LOOK ANGLE".
Definition d4557 : text := "           201000                          *** cancel change data width".
Definition d4558 : text := "           201131                          *** increase data width by 3 bits".
Definition d4559 : text := "           002111                          RADAR INCIDENCE ANGLE".
Definition d4560 : text := "           202000                          *** cancel change scaling".
Definition d4561 : text := "           002104                          ANTENNA POLARISATION".
Definition d4562 : text := "           021105                          NORMALIZED RADAR CROSS SECTION".
Definition d4563 : text := "           021106                          Kp VARIANCE COEFFICIENT (ALPHA)".
Definition d4564 : text := "           021107                          Kp VARIANCE COEFFICIENT (BETA)".
Definition d4565 : text := "           021114                          Kp VARIANCE COEFFICIENT (GAMMA)".
Definition d4566 : text := "           021115                          SEAWINDS SIGMA-0 QUALITY FLAG".
Definition d4567 : text := "           021116                          SEAWINDS SIGMA-0 MODE FLAG".
Definition d4568 : text := "           008018                          SEAWINDS LAND/ICE SURFACE FLAG".
Definition d4569 : text := "           021117                          SIGMA-0 VARIANCE QUALITY CONTROL".
Definition d4570 : text := " 321028 18 021118  SeaWinds Sigma-0 data::ATTENUATION CORRECTION ON SIGMA-0".
Definition d4571 : text := "           021123                          SeaWinds NORMALIZED RADAR CROSS SECTION".
Definition d4572 : text := "           021117    ".
Definition d4573 : text := " 301046 10 001007   ".
Definition d4574 : text := "           001012  ".
Definition d4575 : text := "           002048 ".
Definition d4576 : text := "           025060 ".
Definition d4577 : text := "           002026 ".
Definition d4578 : text := "           202000 ".
Definition d4579 : text := " 310013 62 001007   ".
Definition d4580 : text := "           005040   ".
Definition d4581 : text := "           004001   ".
Definition d4582 : text := "           004002   ".
Definition d4583 : text := "           004003   ".
Definition d4584 : text := "           004004   ".
Definition d4585 : text := "           004005   ".
Definition d4586 : text := "           004006   ".
Definition d4587 : text := "           005001   ".
Definition d4588 : text := "           006001   ".
Definition d4589 : text := "           007025   ".
Definition d4590 : text := "           005043   ".
Definition d4591 : text := "           025085   ".
Definition d4592 : text := "           201131   ".
Definition d4593 : text := "           202129   ".
Definition d4594 : text := "           002150   ".
Definition d4595 : text := "           008023   ".
Definition d4596 : text := "           008072   ".
Definition d4597 : text := "           014027   ".
Definition d4598 : text := "           202000   ".
Definition d4599 : text := "           201000   ".
Definition d4600 : text := "           201132   ".
Definition d4601 : text := "           012063   ".
Definition d4602 : text := " 310014  3 301072   ".
Definition d4603 : text := " 310015 13 301072   ".
Definition d4604 : text := " 310016 13 301072  ".
Definition d4605 : text := " 312026 19 301046   ".
Definition d4606 : text := "           301011   ".
Definition d4607 : text := "           301013   ".
Definition d4608 : text := "           301023   ".
Definition d4609 : text := "           312031   ".
Definition d4610 : text := "           101004   ".
Definition d4611 : text := "           312030   ".
Definition d4612 : text := "           021110   ".
Definition d4613 : text := "           321027   ".
Definition d4614 : text := "           021111   ".
Definition d4615 : text := "           021112   ".
Definition d4616 : text := "           021113   ".
Definition d4617 : text := " 312030 13 201130   ".
Definition d4618 : text := "           011012   ".
Definition d4619 : text := "           011052   ".
Definition d4620 : text := "           201135   ".
Definition d4621 : text := "           202130   ".
Definition d4622 : text := "           011011   ".
Definition d4623 : text := "           011053   ".
Definition d4624 : text := "           021104   ".
Definition d4625 : text := " 312031  8 005034   ".
Definition d4626 : text := "           006034   ".
Definition d4627 : text := "           021109   ".
Definition d4628 : text := "           011081   ".
Definition d4629 : text := "           011082   ".
Definition d4630 : text := "           021101   ".
Definition d4631 : text := "           021102   ".
Definition d4632 : text := "           021103   ".
Definition d4633 : text := " 312211 19 301046  ".
Definition d4634 : text := "           101004  ".
Definition d4635 : text := "           312212  ".
Definition d4636 : text := "           021111  ".
Definition d4637 : text := "           021112  ".
Definition d4638 : text := "           021113  ".
Definition d4639 : text := " 321027 18 021118   ".
Definition d4640 : text := "           002112   ".
Definition d4641 : text := "           002111   ".
Definition d4642 : text := "           002104   ".
Definition d4643 : text := "           021105   ".
Definition d4644 : text := "           021106   ".
Definition d4645 : text := "           021107   ".
Definition d4646 : text := "           021114   ".
Definition d4647 : text := "           021115   ".
Definition d4648 : text := "           021116   ".
Definition d4649 : text := "           008018   ".
Definition d4650 : text := "           021117  ".
Definition d4651 : text := " 321028 18 021118  ".
Definition d4652 : text := "           201132 ".
Definition d4653 : text := "           002112 ".
Definition d4654 : text := "           201000 ".
Definition d4655 : text := "           201131 ".
Definition d4656 : text := "           002111 ".
Definition d4657 : text := "           002104    ".
Definition d4658 : text := "           021123   ".
Definition d4659 : text := "           021117   ".
Definition d4660 : text := " 300002  2 000002                                                                                                     ".
Definition d4661 : text := "           000003                                                                                                     ".
Definition d4662 : text := " 300003  3 000010                                                                                                     ".
Definition d4663 : text := "           000011                                                                                                     ".
Definition d4664 : text := "           000012                                                                                                     ".
Definition d4665 : text := " 300004  9 300003                                                                                                     ".
Definition d4666 : text := "           000013                                                                                                     ".
Definition d4667 : text := "           000014                                                                                                     ".
Definition d4668 : text := "           000015                                                                                                     ".
Definition d4669 : text := "           000016                                                                                                     ".
Definition d4670 : text := "           000017                                                                                                     ".
Definition d4671 : text := "           000018                                                                                                     ".
Definition d4672 : text := "           000019                                                                                                     ".
Definition d4673 : text := "           000020                                                                                                     ".
Definition d4674 : text := " 300010  4 300003                                                                                                     ".
Definition d4675 : text := "           101000                                                                                                     ".
Definition d4676 : text := "           031001                                                                                                     ".
Definition d4677 : text := "           000030                                                                                                     ".
Definition d4678 : text := " 301001  2 001001                                                                                                     ".
Definition d4679 : text := "           001002                                                                                                     ".
Definition d4680 : text := " 301002  3 001003                                                                                                     ".
Definition d4681 : text := "           001004                                                                                                     ".
Definition d4682 : text := "           001005                                                                                                     ".
Definition d4683 : text := " 301003  3 001011                                                                                                     ".
Definition d4684 : text := "           001012                                                                                                     ".
Definition d4685 : text := "           001013                                                                                                     ".
Definition d4686 : text := " 301004  4 001001                                                                                                     ".
Definition d4687 : text := "           001015                                                                                                     ".
Definition d4688 : text := "           002001                                                                                                     ".
Definition d4689 : text := " 301011  3 004001                                                                                                     ".
Definition d4690 : text := "           004002                                                                                                     ".
Definition d4691 : text := "           004003                                                                                                     ".
Definition d4692 : text := " 301012  2 004004                                                                                                     ".
Definition d4693 : text := "           004005                                                                                                     ".
Definition d4694 : text := " 301013  3 004004                                                                                                     ".
Definition d4695 : text := "           004006                                                                                                     ".
Definition d4696 : text := " 301021  2 005001                                                                                                     ".
Definition d4697 : text := "           006001                                                                                                     ".
Definition d4698 : text := " 301022  3 005001                                                                                                     ".
Definition d4699 : text := "           007001                                                                                                     ".
Definition d4700 : text := " 301023  2 005002                                                                                                     ".
Definition d4701 : text := "           006002                                                                                                     ".
Definition d4702 : text := " 301024  3 005002                                                                                                     ".
Definition d4703 : text := " 301025  3 301023                                                                                                     ".
Definition d4704 : text := "           301012                                                                                                     ".
Definition d4705 : text := " 301026  7 301021                                                                                                     ".
Definition d4706 : text := "           004004                                                                                                     ".
Definition d4707 : text := " 301031  5 301001                                                                                                     ".
Definition d4708 : text := "           301011                                                                                                     ".
Definition d4709 : text := "           301022                                                                                                     ".
Definition d4710 : text := " 301032  5 301001                                                                                                     ".
Definition d4711 : text := "           301024                                                                                                     ".
Definition d4712 : text := " 301033  5 001005                                                                                                     ".
Definition d4713 : text := "           301021                                                                                                     ".
Definition d4714 : text := " 301034  5 001005                                                                                                     ".
Definition d4715 : text := "           301023                                                                                                     ".
Definition d4716 : text := " 301035  7 001005                                                                                                     ".
Definition d4717 : text := " 301036  5 301003                                                                                                     ".
Definition d4718 : text := " 301037  6 301001                                                                                                     ".
Definition d4719 : text := "           002011                                                                                                     ".
Definition d4720 : text := "           002012                                                                                                     ".
Definition d4721 : text := " 301038  6 301001                                                                                                     ".
Definition d4722 : text := " 301039  6 301003                                                                                                     ".
Definition d4723 : text := " 301040  6 301003                                                                                                     ".
Definition d4724 : text := " 301041  5 001007                                                                                                     ".
Definition d4725 : text := "           002021                                                                                                     ".
Definition d4726 : text := "           002022                                                                                                     ".
Definition d4727 : text := " 301042  2 301041                                                                                                     ".
Definition d4728 : text := " 301043  5 001007                                                                                                     ".
Definition d4729 : text := "           002023                                                                                                     ".
Definition d4730 : text := "           301013                                                                                                     ".
Definition d4731 : text := " 301044  5 001007                                                                                                     ".
Definition d4732 : text := "           002024                                                                                                     ".
Definition d4733 : text := " 301045  9 301011                                                                                                     ".
Definition d4734 : text := "           201138                                                                                                     ".
Definition d4735 : text := "           202131                                                                                                     ".
Definition d4736 : text := "           201000                                                                                                     ".
Definition d4737 : text := "           202000                                                                                                     ".
Definition d4738 : text := "           304030                                                                                                     ".
Definition d4739 : text := "           304031                                                                                                     ".
Definition d4740 : text := " 301046 10 001007                                                                                                     ".
Definition d4741 : text := "           002048                                                                                                     ".
Definition d4742 : text := "           021119                                                                                                     ".
Definition d4743 : text := "           025060                                                                                                     ".
Definition d4744 : text := "           202124                                                                                                     ".
Definition d4745 : text := "           002026                                                                                                     ".
Definition d4746 : text := "           002027                                                                                                     ".
Definition d4747 : text := "           005040                                                                                                     ".
Definition d4748 : text := " 301047 15 001007                                                                                                     ".
Definition d4749 : text := "           001033                                                                                                     ".
Definition d4750 : text := "           001034                                                                                                     ".
Definition d4751 : text := "           301045                                                                                                     ".
Definition d4752 : text := " 301048 14 002104                                                                                                     ".
Definition d4753 : text := "           002121                                                                                                     ".
Definition d4754 : text := "           002113                                                                                                     ".
Definition d4755 : text := "           002111                                                                                                     ".
Definition d4756 : text := "           002140                                                                                                     ".
Definition d4757 : text := "           202127                                                                                                     ".
Definition d4758 : text := "           202126                                                                                                     ".
Definition d4759 : text := "           025010                                                                                                     ".
Definition d4760 : text := "           021064                                                                                                     ".
Definition d4761 : text := " 301049  5 002111                                                                                                     ".
Definition d4762 : text := "           002112                                                                                                     ".
Definition d4763 : text := "           021062                                                                                                     ".
Definition d4764 : text := "           021063                                                                                                     ".
Definition d4765 : text := "           021065                                                                                                     ".
Definition d4766 : text := " 301051  6 001006                                                                                                     ".
Definition d4767 : text := "           002061                                                                                                     ".
Definition d4768 : text := "           008004                                                                                                     ".
Definition d4769 : text := " 301055  7 001005                                                                                                     ".
Definition d4770 : text := "           001014                                                                                                     ".
Definition d4771 : text := " 301062  3 101000                                                                                                     ".
Definition d4772 : text := "           301001                                                                                                     ".
Definition d4773 : text := " 301065  8 001006                                                                                                     ".
Definition d4774 : text := "           001008                                                                                                     ".
Definition d4775 : text := "           002002                                                                                                     ".
Definition d4776 : text := "           002005                                                                                                     ".
Definition d4777 : text := "           002062                                                                                                     ".
Definition d4778 : text := "           002070                                                                                                     ".
Definition d4779 : text := "           002065                                                                                                     ".
Definition d4780 : text := " 301066  6 301011                                                                                                     ".
Definition d4781 : text := "           007004                                                                                                     ".
Definition d4782 : text := "           002064                                                                                                     ".
Definition d4783 : text := " 301071  5 001007                                                                                                     ".
Definition d4784 : text := "           001031                                                                                                     ".
Definition d4785 : text := "           002020                                                                                                     ".
Definition d4786 : text := "           002028                                                                                                     ".
Definition d4787 : text := "           002029                                                                                                     ".
Definition d4788 : text := " 301072  4 301071                                                                                                     ".
Definition d4789 : text := " 301090  6 301004                                                                                                     ".
Definition d4790 : text := "           007030                                                                                                     ".
Definition d4791 : text := "           007031                                                                                                     ".
Definition d4792 : text := " 301091 10 002180                                                                                                     ".
Definition d4793 : text := "           002181                                                                                                     ".
Definition d4794 : text := "           002182                                                                                                     ".
Definition d4795 : text := "           002183                                                                                                     ".
Definition d4796 : text := "           002184                                                                                                     ".
Definition d4797 : text := "           002179                                                                                                     ".
Definition d4798 : text := "           002186                                                                                                     ".
Definition d4799 : text := "           002187                                                                                                     ".
Definition d4800 : text := "           002188                                                                                                     ".
Definition d4801 : text := "           002189                                                                                                     ".
Definition d4802 : text := " 301193  5 001007                                                                                                     ".
Definition d4803 : text := "           002196                                                                                                     ".
Definition d4804 : text := "           002221                                                                                                     ".
Definition d4805 : text := "           002222                                                                                                     ".
Definition d4806 : text := " 301194  9 001194                                                                                                     ".
Definition d4807 : text := " 301195  9 001195                                                                                                     ".
Definition d4808 : text := " 301196  7 301003                                                                                                     ".
Definition d4809 : text := " 301200  2 001032                                                                                                     ".
Definition d4810 : text := "           033194                                                                                                     ".
Definition d4811 : text := " 301201  2 101003                                                                                                     ".
Definition d4812 : text := "           033193                                                                                                     ".
Definition d4813 : text := " 301202  2 001031                                                                                                     ".
Definition d4814 : text := "           001032                                                                                                     ".
Definition d4815 : text := " 301237 12 001007                                                                                                     ".
Definition d4816 : text := " 301238 14 002104                                                                                                     ".
Definition d4817 : text := "           002192                                                                                                     ".
Definition d4818 : text := "           021194                                                                                                     ".
Definition d4819 : text := " 301239  5 002111                                                                                                     ".
Definition d4820 : text := "           021192                                                                                                     ".
Definition d4821 : text := "           021193                                                                                                     ".
Definition d4822 : text := "           021195                                                                                                     ".
Definition d4823 : text := " 301240  5 201131                                                                                                     ".
Definition d4824 : text := "           202129                                                                                                     ".
Definition d4825 : text := "           022021                                                                                                     ".
Definition d4826 : text := " 301241  5 201141                                                                                                     ".
Definition d4827 : text := "           202130                                                                                                     ".
Definition d4828 : text := " 301242  6 021207                                                                                                     ".
Definition d4829 : text := "           021208                                                                                                     ".
Definition d4830 : text := "           021209                                                                                                     ".
Definition d4831 : text := "           021210                                                                                                     ".
Definition d4832 : text := "           021211                                                                                                     ".
Definition d4833 : text := "           021212                                                                                                     ".
Definition d4834 : text := " 301250  4 301193                                                                                                     ".
Definition d4835 : text := " 302001  4 010004                                                                                                     ".
Definition d4836 : text := "           010051                                                                                                     ".
Definition d4837 : text := "           010061                                                                                                     ".
Definition d4838 : text := "           010063                                                                                                     ".
Definition d4839 : text := " 302002  5 010004                                                                                                     ".
Definition d4840 : text := "           010003                                                                                                     ".
Definition d4841 : text := " 302003  9 011011                                                                                                     ".
Definition d4842 : text := "           011012                                                                                                     ".
Definition d4843 : text := "           012004                                                                                                     ".
Definition d4844 : text := "           012006                                                                                                     ".
Definition d4845 : text := "           013003                                                                                                     ".
Definition d4846 : text := "           020001                                                                                                     ".
Definition d4847 : text := "           020003                                                                                                     ".
Definition d4848 : text := "           020004                                                                                                     ".
Definition d4849 : text := "           020005                                                                                                     ".
Definition d4850 : text := " 302004  7 020010                                                                                                     ".
Definition d4851 : text := "           008002                                                                                                     ".
Definition d4852 : text := "           020011                                                                                                     ".
Definition d4853 : text := "           020013                                                                                                     ".
Definition d4854 : text := "           020012                                                                                                     ".
Definition d4855 : text := " 302005  4 008002                                                                                                     ".
Definition d4856 : text := " 302006  4 010004                                                                                                     ".
Definition d4857 : text := "           010062                                                                                                     ".
Definition d4858 : text := " 302011  3 302001                                                                                                     ".
Definition d4859 : text := "           302003                                                                                                     ".
Definition d4860 : text := "           302004                                                                                                     ".
Definition d4861 : text := " 302012  3 302002                                                                                                     ".
Definition d4862 : text := " 302013  5 302006                                                                                                     ".
Definition d4863 : text := "           302005                                                                                                     ".
Definition d4864 : text := " 302021  3 022001                                                                                                     ".
Definition d4865 : text := "           022011                                                                                                     ".
Definition d4866 : text := " 302022  3 022002                                                                                                     ".
Definition d4867 : text := "           022012                                                                                                     ".
Definition d4868 : text := "           022022                                                                                                     ".
Definition d4869 : text := " 302023  3 022003                                                                                                     ".
Definition d4870 : text := "           022013                                                                                                     ".
Definition d4871 : text := "           022023                                                                                                     ".
Definition d4872 : text := " 302024  3 302022                                                                                                     ".
Definition d4873 : text := "           101002                                                                                                     ".
Definition d4874 : text := "           302023                                                                                                     ".
Definition d4875 : text := " 302051 12 010004                                                                                                     ".
Definition d4876 : text := "           012051                                                                                                     ".
Definition d4877 : text := "           012016                                                                                                     ".
Definition d4878 : text := "           012017                                                                                                     ".
Definition d4879 : text := "           013004                                                                                                     ".
Definition d4880 : text := "           102004                                                                                                     ".
Definition d4881 : text := "           008051                                                                                                     ".
Definition d4882 : text := "           008020                                                                                                     ".
Definition d4883 : text := " 302069  4 007032                                                                                                     ".
Definition d4884 : text := "           007033                                                                                                     ".
Definition d4885 : text := "           033041                                                                                                     ".
Definition d4886 : text := " 302070  8 007032                                                                                                     ".
Definition d4887 : text := "           011001                                                                                                     ".
Definition d4888 : text := "           011002                                                                                                     ".
Definition d4889 : text := "           011043                                                                                                     ".
Definition d4890 : text := "           011041                                                                                                     ".
Definition d4891 : text := "           011016                                                                                                     ".
Definition d4892 : text := "           011017                                                                                                     ".
Definition d4893 : text := " 302071 14 007032                                                                                                     ".
Definition d4894 : text := "           008021                                                                                                     ".
Definition d4895 : text := "           004025                                                                                                     ".
Definition d4896 : text := "           103002                                                                                                     ".
Definition d4897 : text := " 302072  5 007032                                                                                                     ".
Definition d4898 : text := "           012101                                                                                                     ".
Definition d4899 : text := "           012103                                                                                                     ".
Definition d4900 : text := " 302073  7 020010                                                                                                     ".
Definition d4901 : text := "           105004                                                                                                     ".
Definition d4902 : text := " 302074  4 020003                                                                                                     ".
Definition d4903 : text := " 302075  5 008021                                                                                                     ".
Definition d4904 : text := "           013055                                                                                                     ".
Definition d4905 : text := "           013058                                                                                                     ".
Definition d4906 : text := " 302076  7 002021                                                                                                     ".
Definition d4907 : text := "           020022                                                                                                     ".
Definition d4908 : text := "           026020                                                                                                     ".
Definition d4909 : text := "           020023                                                                                                     ".
Definition d4910 : text := "           020024                                                                                                     ".
Definition d4911 : text := "           020025                                                                                                     ".
Definition d4912 : text := "           020026                                                                                                     ".
Definition d4913 : text := " 302077 12 007032                                                                                                     ".
Definition d4914 : text := "           012111                                                                                                     ".
Definition d4915 : text := "           012112                                                                                                     ".
Definition d4916 : text := "           007032                                                                                                     ".
Definition d4917 : text := "           002176                                                                                                     ".
Definition d4918 : text := "           020062                                                                                                     ".
Definition d4919 : text := "           002177                                                                                                     ".
Definition d4920 : text := "           013013                                                                                                     ".
Definition d4921 : text := " 302078  4 002176                                                                                                     ".
Definition d4922 : text := " 302079  5 007032                                                                                                     ".
Definition d4923 : text := "           002175                                                                                                     ".
Definition d4924 : text := "           002178                                                                                                     ".
Definition d4925 : text := "           013011                                                                                                     ".
Definition d4926 : text := " 302080  3 002185                                                                                                     ".
Definition d4927 : text := "           013033                                                                                                     ".
Definition d4928 : text := " 302081  2 004025                                                                                                     ".
Definition d4929 : text := "           014031                                                                                                     ".
Definition d4930 : text := " 302082  7 004025                                                                                                     ".
Definition d4931 : text := "           014002                                                                                                     ".
Definition d4932 : text := "           014004                                                                                                     ".
Definition d4933 : text := "           014016                                                                                                     ".
Definition d4934 : text := "           014028                                                                                                     ".
Definition d4935 : text := "           014029                                                                                                     ".
Definition d4936 : text := "           014030                                                                                                     ".
Definition d4937 : text := " 302083  8 004025                                                                                                     ".
Definition d4938 : text := "           008023                                                                                                     ".
Definition d4939 : text := "           010004                                                                                                     ".
Definition d4940 : text := " 302205  5 201131                                                                                                     ".
Definition d4941 : text := " 302206  9 302205                                                                                                     ".
Definition d4942 : text := "           201130                                                                                                     ".
Definition d4943 : text := "           022001                                                                                                     ".
Definition d4944 : text := " 302207  5 022193                                                                                                     ".
Definition d4945 : text := "           022194                                                                                                     ".
Definition d4946 : text := "           022195                                                                                                     ".
Definition d4947 : text := "           022196                                                                                                     ".
Definition d4948 : text := "           022197                                                                                                     ".
Definition d4949 : text := " 302250  5 102000                                                                                                     ".
Definition d4950 : text := "           020193                                                                                                     ".
Definition d4951 : text := "           020194                                                                                                     ".
Definition d4952 : text := " 303001  3 007003                                                                                                     ".
Definition d4953 : text := " 303002  3 007004                                                                                                     ".
Definition d4954 : text := " 303003  4 007004                                                                                                     ".
Definition d4955 : text := "           012001                                                                                                     ".
Definition d4956 : text := "           012003                                                                                                     ".
Definition d4957 : text := " 303004  6 007004                                                                                                     ".
Definition d4958 : text := " 303011  4 007003                                                                                                     ".
Definition d4959 : text := "           008001                                                                                                     ".
Definition d4960 : text := " 303012  4 007004                                                                                                     ".
Definition d4961 : text := " 303013  7 007004                                                                                                     ".
Definition d4962 : text := " 303014  7 007004                                                                                                     ".
Definition d4963 : text := " 303021  4 007004                                                                                                     ".
Definition d4964 : text := "           204007                                                                                                     ".
Definition d4965 : text := "           031021                                                                                                     ".
Definition d4966 : text := " 303022  3 303021                                                                                                     ".
Definition d4967 : text := "           204000                                                                                                     ".
Definition d4968 : text := " 303023  3 303021                                                                                                     ".
Definition d4969 : text := " 303024  3 303021                                                                                                     ".
Definition d4970 : text := "           013016                                                                                                     ".
Definition d4971 : text := " 303025  5 002025                                                                                                     ".
Definition d4972 : text := "           012063                                                                                                     ".
Definition d4973 : text := " 303026  6 007004                                                                                                     ".
Definition d4974 : text := "           008003                                                                                                     ".
Definition d4975 : text := " 303027  5 007004                                                                                                     ".
Definition d4976 : text := " 303031  6 007004                                                                                                     ".
Definition d4977 : text := "           007021                                                                                                     ".
Definition d4978 : text := "           007022                                                                                                     ".
Definition d4979 : text := "           008012                                                                                                     ".
Definition d4980 : text := "           012061                                                                                                     ".
Definition d4981 : text := " 303032  2 020011                                                                                                     ".
Definition d4982 : text := "           020016                                                                                                     ".
Definition d4983 : text := " 303033  2 020010                                                                                                     ".
Definition d4984 : text := " 303041  8 002152                                                                                                     ".
Definition d4985 : text := "           002153                                                                                                     ".
Definition d4986 : text := "           002154                                                                                                     ".
Definition d4987 : text := "           012071                                                                                                     ".
Definition d4988 : text := " 303249  7 002252                                                                                                     ".
Definition d4989 : text := "           104000                                                                                                     ".
Definition d4990 : text := "           002199                                                                                                     ".
Definition d4991 : text := " 303250  8 002252                                                                                                     ".
Definition d4992 : text := "           002197                                                                                                     ".
Definition d4993 : text := "           002198                                                                                                     ".
Definition d4994 : text := "           012193                                                                                                     ".
Definition d4995 : text := " 303251  8 002252                                                                                                     ".
Definition d4996 : text := "           105000                                                                                                     ".
Definition d4997 : text := "           002254                                                                                                     ".
Definition d4998 : text := "           002251                                                                                                     ".
Definition d4999 : text := " 303252  8 002252                                                                                                     ".
Definition d5000 : text := "           012194                                                                                                     ".
Definition d5001 : text := " 304001  5 008003                                                                                                     ".
Definition d5002 : text := " 304002  4 008003                                                                                                     ".
Definition d5003 : text := " 304003  2 008003                                                                                                     ".
Definition d5004 : text := " 304004  4 008003                                                                                                     ".
Definition d5005 : text := "           020010                                                                                                     ".
Definition d5006 : text := " 304005  4 002024                                                                                                     ".
Definition d5007 : text := " 304006  3 014001                                                                                                     ".
Definition d5008 : text := "           014001                                                                                                     ".
Definition d5009 : text := "           014003                                                                                                     ".
Definition d5010 : text := " 304011 27 002163                                                                                                     ".
Definition d5011 : text := "           002164                                                                                                     ".
Definition d5012 : text := "           007024                                                                                                     ".
Definition d5013 : text := "           002057                                                                                                     ".
Definition d5014 : text := "           004001                                                                                                     ".
Definition d5015 : text := "           004024                                                                                                     ".
Definition d5016 : text := "           110004                                                                                                     ".
Definition d5017 : text := "           103010                                                                                                     ".
Definition d5018 : text := "           002163                                                                                                     ".
Definition d5019 : text := " 304030  3 027031                                                                                                     ".
Definition d5020 : text := "           028031                                                                                                     ".
Definition d5021 : text := "           010031                                                                                                     ".
Definition d5022 : text := " 304031  3 001041                                                                                                     ".
Definition d5023 : text := "           001042                                                                                                     ".
Definition d5024 : text := "           001043                                                                                                     ".
Definition d5025 : text := " 304032  5 002153                                                                                                     ".
Definition d5026 : text := "           020081                                                                                                     ".
Definition d5027 : text := "           020082                                                                                                     ".
Definition d5028 : text := " 304033  8 002152                                                                                                     ".
Definition d5029 : text := "           002166                                                                                                     ".
Definition d5030 : text := "           002167                                                                                                     ".
Definition d5031 : text := "           012075                                                                                                     ".
Definition d5032 : text := "           012076                                                                                                     ".
Definition d5033 : text := " 304034  9 102004                                                                                                     ".
Definition d5034 : text := "           027001                                                                                                     ".
Definition d5035 : text := "           028001                                                                                                     ".
Definition d5036 : text := "           005043                                                                                                     ".
Definition d5037 : text := "           033003                                                                                                     ".
Definition d5038 : text := "           010040                                                                                                     ".
Definition d5039 : text := " 304228  3 005217                                                                                                     ".
Definition d5040 : text := "           006217                                                                                                     ".
Definition d5041 : text := "           007217                                                                                                     ".
Definition d5042 : text := " 304229  3 001208                                                                                                     ".
Definition d5043 : text := "           001209                                                                                                     ".
Definition d5044 : text := "           001210                                                                                                     ".
Definition d5045 : text := " 304250 27 002231                                                                                                     ".
Definition d5046 : text := "           002232                                                                                                     ".
Definition d5047 : text := "           002231                                                                                                     ".
Definition d5048 : text := " 305003  5 301012                                                                                                     ".
Definition d5049 : text := "           004065                                                                                                     ".
Definition d5050 : text := "           305001                                                                                                     ".
Definition d5051 : text := " 305006  6 013072                                                                                                     ".
Definition d5052 : text := "           013082                                                                                                     ".
Definition d5053 : text := "           013019                                                                                                     ".
Definition d5054 : text := "           013073                                                                                                     ".
Definition d5055 : text := "           013060                                                                                                     ".
Definition d5056 : text := " 305007  6 301029                                                                                                     ".
Definition d5057 : text := "           305006                                                                                                     ".
Definition d5058 : text := " 305008  2 305006                                                                                                     ".
Definition d5059 : text := "           012030                                                                                                     ".
Definition d5060 : text := " 305009  6 301029                                                                                                     ".
Definition d5061 : text := "           305008                                                                                                     ".
Definition d5062 : text := " 305011  6 301029                                                                                                     ".
Definition d5063 : text := "           305010                                                                                                     ".
Definition d5064 : text := " 305018  8 301029                                                                                                     ".
Definition d5065 : text := "           103000                                                                                                     ".
Definition d5066 : text := "           305016                                                                                                     ".
Definition d5067 : text := "           305017                                                                                                     ".
Definition d5068 : text := " 306001  5 002032                                                                                                     ".
Definition d5069 : text := "           102000                                                                                                     ".
Definition d5070 : text := "           007062                                                                                                     ".
Definition d5071 : text := "           022042                                                                                                     ".
Definition d5072 : text := " 306002  3 002031                                                                                                     ".
Definition d5073 : text := "           022004                                                                                                     ".
Definition d5074 : text := "           022031                                                                                                     ".
Definition d5075 : text := " 306003  4 002002                                                                                                     ".
Definition d5076 : text := "           011011                                                                                                     ".
Definition d5077 : text := " 306004  7 002032                                                                                                     ".
Definition d5078 : text := "           002033                                                                                                     ".
Definition d5079 : text := "           022043                                                                                                     ".
Definition d5080 : text := "           022062                                                                                                     ".
Definition d5081 : text := " 306005  6 002031                                                                                                     ".
Definition d5082 : text := " 306006  3 306003                                                                                                     ".
Definition d5083 : text := "           306002                                                                                                     ".
Definition d5084 : text := "           022063                                                                                                     ".
Definition d5085 : text := " 306007  6 001012                                                                                                     ".
Definition d5086 : text := "           306008                                                                                                     ".
Definition d5087 : text := "           027003                                                                                                     ".
Definition d5088 : text := "           028003                                                                                                     ".
Definition d5089 : text := " 306008  3 002034                                                                                                     ".
Definition d5090 : text := "           002035                                                                                                     ".
Definition d5091 : text := "           002036                                                                                                     ".
Definition d5092 : text := " 306020  4 306024                                                                                                     ".
Definition d5093 : text := "           102006                                                                                                     ".
Definition d5094 : text := "           022038                                                                                                     ".
Definition d5095 : text := "           022039                                                                                                     ".
Definition d5096 : text := " 306021  7 001075                                                                                                     ".
Definition d5097 : text := "           022122                                                                                                     ".
Definition d5098 : text := "           022123                                                                                                     ".
Definition d5099 : text := "           303002                                                                                                     ".
Definition d5100 : text := " 306022  5 001075                                                                                                     ".
Definition d5101 : text := " 306023  8 001015                                                                                                     ".
Definition d5102 : text := "           022120                                                                                                     ".
Definition d5103 : text := "           022121                                                                                                     ".
Definition d5104 : text := " 306024  8 001075                                                                                                     ".
Definition d5105 : text := "           004015                                                                                                     ".
Definition d5106 : text := " 307001  2 301031                                                                                                     ".
Definition d5107 : text := "           302011                                                                                                     ".
Definition d5108 : text := " 307002  2 301032                                                                                                     ".
Definition d5109 : text := " 307003  4 307001                                                                                                     ".
Definition d5110 : text := " 307004  4 307002                                                                                                     ".
Definition d5111 : text := " 307005  3 307001                                                                                                     ".
Definition d5112 : text := "           101004                                                                                                     ".
Definition d5113 : text := " 307006  3 307002                                                                                                     ".
Definition d5114 : text := " 307007  2 301031                                                                                                     ".
Definition d5115 : text := "           302012                                                                                                     ".
Definition d5116 : text := " 307008  2 301032                                                                                                     ".
Definition d5117 : text := " 307009  2 301031                                                                                                     ".
Definition d5118 : text := "           302013                                                                                                     ".
Definition d5119 : text := " 307011 16 001063                                                                                                     ".
Definition d5120 : text := "           007006                                                                                                     ".
Definition d5121 : text := "           010052                                                                                                     ".
Definition d5122 : text := "           020009                                                                                                     ".
Definition d5123 : text := " 307012  5 103000                                                                                                     ".
Definition d5124 : text := "           005021                                                                                                     ".
Definition d5125 : text := " 307013  8 106000                                                                                                     ".
Definition d5126 : text := "           001064                                                                                                     ".
Definition d5127 : text := "           008014                                                                                                     ".
Definition d5128 : text := "           020061                                                                                                     ".
Definition d5129 : text := "           020018                                                                                                     ".
Definition d5130 : text := " 307014  3 101000                                                                                                     ".
Definition d5131 : text := "           020019                                                                                                     ".
Definition d5132 : text := " 307015  8 101000                                                                                                     ".
Definition d5133 : text := "           020002                                                                                                     ".
Definition d5134 : text := " 307016  3 101000                                                                                                     ".
Definition d5135 : text := "           020020                                                                                                     ".
Definition d5136 : text := " 307017  3 101000                                                                                                     ".
Definition d5137 : text := "           011070                                                                                                     ".
Definition d5138 : text := " 307018 16 008016                                                                                                     ".
Definition d5139 : text := "           008017                                                                                                     ".
Definition d5140 : text := "           307014                                                                                                     ".
Definition d5141 : text := " 307020  3 307011                                                                                                     ".
Definition d5142 : text := "           307016                                                                                                     ".
Definition d5143 : text := " 307021  9 307011                                                                                                     ".
Definition d5144 : text := "           307012                                                                                                     ".
Definition d5145 : text := "           307013                                                                                                     ".
Definition d5146 : text := "           307015                                                                                                     ".
Definition d5147 : text := "           307017                                                                                                     ".
Definition d5148 : text := "           307018                                                                                                     ".
Definition d5149 : text := " 307022 31 001015                                                                                                     ".
Definition d5150 : text := "           033038                                                                                                     ".
Definition d5151 : text := "           008022                                                                                                     ".
Definition d5152 : text := "           106025                                                                                                     ".
Definition d5153 : text := "           001050                                                                                                     ".
Definition d5154 : text := "           015031                                                                                                     ".
Definition d5155 : text := "           015032                                                                                                     ".
Definition d5156 : text := "           008060                                                                                                     ".
Definition d5157 : text := "           015033                                                                                                     ".
Definition d5158 : text := "           015034                                                                                                     ".
Definition d5159 : text := "           015035                                                                                                     ".
Definition d5160 : text := "           201131                                                                                                     ".
Definition d5161 : text := "           015011                                                                                                     ".
Definition d5162 : text := " 308001  3 301033                                                                                                     ".
Definition d5163 : text := " 308002  3 301034                                                                                                     ".
Definition d5164 : text := " 308003  3 301035                                                                                                     ".
Definition d5165 : text := " 308004  3 301036                                                                                                     ".
Definition d5166 : text := " 308005  2 308004                                                                                                     ".
Definition d5167 : text := "           302024                                                                                                     ".
Definition d5168 : text := " 308006  8 010004                                                                                                     ".
Definition d5169 : text := " 308007  4 301055                                                                                                     ".
Definition d5170 : text := " 309001  4 301037                                                                                                     ".
Definition d5171 : text := "           303011                                                                                                     ".
Definition d5172 : text := " 309002  4 301038                                                                                                     ".
Definition d5173 : text := " 309003  4 301037                                                                                                     ".
Definition d5174 : text := "           303012                                                                                                     ".
Definition d5175 : text := " 309004  4 301038                                                                                                     ".
Definition d5176 : text := " 309005  5 301037                                                                                                     ".
Definition d5177 : text := "           303013                                                                                                     ".
Definition d5178 : text := " 309006  5 301038                                                                                                     ".
Definition d5179 : text := " 309007  5 301037                                                                                                     ".
Definition d5180 : text := "           303014                                                                                                     ".
Definition d5181 : text := " 309008  5 301038                                                                                                     ".
Definition d5182 : text := " 309011  4 301039                                                                                                     ".
Definition d5183 : text := " 309012  4 301039                                                                                                     ".
Definition d5184 : text := " 309013  5 301039                                                                                                     ".
Definition d5185 : text := " 309014  5 301039                                                                                                     ".
Definition d5186 : text := " 309015  4 301040                                                                                                     ".
Definition d5187 : text := " 309016  4 301040                                                                                                     ".
Definition d5188 : text := " 309017  5 301040                                                                                                     ".
Definition d5189 : text := " 309018  5 301040                                                                                                     ".
Definition d5190 : text := " 309019  5 301031                                                                                                     ".
Definition d5191 : text := "           002003                                                                                                     ".
Definition d5192 : text := " 309020  8 301031                                                                                                     ".
Definition d5193 : text := "           007003                                                                                                     ".
Definition d5194 : text := "           011003                                                                                                     ".
Definition d5195 : text := "           011004                                                                                                     ".
Definition d5196 : text := "           011005                                                                                                     ".
Definition d5197 : text := " 309030  8 015004                                                                                                     ".
Definition d5198 : text := "           015005                                                                                                     ".
Definition d5199 : text := "           008006                                                                                                     ".
Definition d5200 : text := "           015003                                                                                                     ".
Definition d5201 : text := " 309194  5 301194                                                                                                     ".
Definition d5202 : text := " 309195  5 301195                                                                                                     ".
Definition d5203 : text := " 309196  5 301196                                                                                                     ".
Definition d5204 : text := " 310001  5 301042                                                                                                     ".
Definition d5205 : text := "           303031                                                                                                     ".
Definition d5206 : text := "           303032                                                                                                     ".
Definition d5207 : text := "           101026                                                                                                     ".
Definition d5208 : text := "           303025                                                                                                     ".
Definition d5209 : text := " 310002  5 301042                                                                                                     ".
Definition d5210 : text := "           101009                                                                                                     ".
Definition d5211 : text := "           303023                                                                                                     ".
Definition d5212 : text := " 310003  5 301042                                                                                                     ".
Definition d5213 : text := "           101006                                                                                                     ".
Definition d5214 : text := " 310004  5 301042                                                                                                     ".
Definition d5215 : text := "           101003                                                                                                     ".
Definition d5216 : text := "           303024                                                                                                     ".
Definition d5217 : text := " 310005  6 301042                                                                                                     ".
Definition d5218 : text := "           303033                                                                                                     ".
Definition d5219 : text := " 310006  6 301042                                                                                                     ".
Definition d5220 : text := " 310007  6 301042                                                                                                     ".
Definition d5221 : text := " 310008  8 310011                                                                                                     ".
Definition d5222 : text := "           101019                                                                                                     ".
Definition d5223 : text := "           310012                                                                                                     ".
Definition d5224 : text := "           002150                                                                                                     ".
Definition d5225 : text := "           025079                                                                                                     ".
Definition d5226 : text := "           025080                                                                                                     ".
Definition d5227 : text := "           033032                                                                                                     ".
Definition d5228 : text := "           014045                                                                                                     ".
Definition d5229 : text := " 310009  3 310011                                                                                                     ".
Definition d5230 : text := "           101015                                                                                                     ".
Definition d5231 : text := " 310010  3 310011                                                                                                     ".
Definition d5232 : text := "           101005                                                                                                     ".
Definition d5233 : text := " 310011 45 008070                                                                                                     ".
Definition d5234 : text := "           008070                                                                                                     ".
Definition d5235 : text := "           001007                                                                                                     ".
Definition d5236 : text := "           025075                                                                                                     ".
Definition d5237 : text := "           201133                                                                                                     ".
Definition d5238 : text := "           005041                                                                                                     ".
Definition d5239 : text := "           025070                                                                                                     ".
Definition d5240 : text := "           033030                                                                                                     ".
Definition d5241 : text := "           033031                                                                                                     ".
Definition d5242 : text := "           005001                                                                                                     ".
Definition d5243 : text := "           007025                                                                                                     ".
Definition d5244 : text := "           005022                                                                                                     ".
Definition d5245 : text := "           033033                                                                                                     ".
Definition d5246 : text := "           002151                                                                                                     ".
Definition d5247 : text := "           012064                                                                                                     ".
Definition d5248 : text := " 310012 10 002150                                                                                                     ".
Definition d5249 : text := "           025076                                                                                                     ".
Definition d5250 : text := "           025077                                                                                                     ".
Definition d5251 : text := "           025078                                                                                                     ".
Definition d5252 : text := "           201132                                                                                                     ".
Definition d5253 : text := " 310013 62 001007                                                                                                     ".
Definition d5254 : text := "           025085                                                                                                     ".
Definition d5255 : text := "           008072                                                                                                     ".
Definition d5256 : text := "           014027                                                                                                     ".
Definition d5257 : text := " 310014  3 301072                                                                                                     ".
Definition d5258 : text := "           303041                                                                                                     ".
Definition d5259 : text := "           304011                                                                                                     ".
Definition d5260 : text := " 310015 13 301072                                                                                                     ".
Definition d5261 : text := "           010002                                                                                                     ".
Definition d5262 : text := "           304032                                                                                                     ".
Definition d5263 : text := "           002152                                                                                                     ".
Definition d5264 : text := "           304033                                                                                                     ".
Definition d5265 : text := " 310016 13 301072                                                                                                     ".
Definition d5266 : text := "           101012                                                                                                     ".
Definition d5267 : text := " 310020  6 310022                                                                                                     ".
Definition d5268 : text := "           304034                                                                                                     ".
Definition d5269 : text := "           310021                                                                                                     ".
Definition d5270 : text := " 310021 10 108000                                                                                                     ".
Definition d5271 : text := "           015020                                                                                                     ".
Definition d5272 : text := " 310022  4 001007                                                                                                     ".
Definition d5273 : text := "           002019                                                                                                     ".
Definition d5274 : text := "           002172                                                                                                     ".
Definition d5275 : text := " 310023 17 301072                                                                                                     ".
Definition d5276 : text := "           030021                                                                                                     ".
Definition d5277 : text := "           030022                                                                                                     ".
Definition d5278 : text := "           105002                                                                                                     ".
Definition d5279 : text := " 310024 17 301072                                                                                                     ".
Definition d5280 : text := " 310029 12 110000                                                                                                     ".
Definition d5281 : text := "           013098                                                                                                     ".
Definition d5282 : text := " 310030  6 310022                                                                                                     ".
Definition d5283 : text := "           310029                                                                                                     ".
Definition d5284 : text := " 310193  5 301250                                                                                                     ".
Definition d5285 : text := "           303250                                                                                                     ".
Definition d5286 : text := "           302250                                                                                                     ".
Definition d5287 : text := "           303249                                                                                                     ".
Definition d5288 : text := "           303251                                                                                                     ".
Definition d5289 : text := " 310194  5 301250                                                                                                     ".
Definition d5290 : text := "           303252                                                                                                     ".
Definition d5291 : text := " 310195  3 301250                                                                                                     ".
Definition d5292 : text := "           304250                                                                                                     ".
Definition d5293 : text := " 310196  3 301250                                                                                                     ".
Definition d5294 : text := " 311001  9 301051                                                                                                     ".
Definition d5295 : text := "           007002                                                                                                     ".
Definition d5296 : text := "           011031                                                                                                     ".
Definition d5297 : text := "           011032                                                                                                     ".
Definition d5298 : text := "           011033                                                                                                     ".
Definition d5299 : text := "           020041                                                                                                     ".
Definition d5300 : text := " 311002  4 301065                                                                                                     ".
Definition d5301 : text := "           301066                                                                                                     ".
Definition d5302 : text := "           311003                                                                                                     ".
Definition d5303 : text := "           311004                                                                                                     ".
Definition d5304 : text := " 311003  5 010070                                                                                                     ".
Definition d5305 : text := "           013002                                                                                                     ".
Definition d5306 : text := " 311004 18 101000                                                                                                     ".
Definition d5307 : text := "           031000                                                                                                     ".
Definition d5308 : text := "           011034                                                                                                     ".
Definition d5309 : text := "           011035                                                                                                     ".
Definition d5310 : text := "           011075                                                                                                     ".
Definition d5311 : text := "           011076                                                                                                     ".
Definition d5312 : text := "           033025                                                                                                     ".
Definition d5313 : text := "           033026                                                                                                     ".
Definition d5314 : text := " 311005 13 001008                                                                                                     ".
Definition d5315 : text := "           001023                                                                                                     ".
Definition d5316 : text := "           007010                                                                                                     ".
Definition d5317 : text := "           008009                                                                                                     ".
Definition d5318 : text := "           011036                                                                                                     ".
Definition d5319 : text := " 311006  6 007010                                                                                                     ".
Definition d5320 : text := " 312001  2 301043                                                                                                     ".
Definition d5321 : text := "           304001                                                                                                     ".
Definition d5322 : text := " 312002  2 301043                                                                                                     ".
Definition d5323 : text := "           304002                                                                                                     ".
Definition d5324 : text := " 312003  2 301042                                                                                                     ".
Definition d5325 : text := "           304003                                                                                                     ".
Definition d5326 : text := " 312004  2 301042                                                                                                     ".
Definition d5327 : text := "           304004                                                                                                     ".
Definition d5328 : text := " 312005  2 301042                                                                                                     ".
Definition d5329 : text := "           020014                                                                                                     ".
Definition d5330 : text := " 312006  2 301044                                                                                                     ".
Definition d5331 : text := "           304005                                                                                                     ".
Definition d5332 : text := " 312007  2 301042                                                                                                     ".
Definition d5333 : text := "           304006                                                                                                     ".
Definition d5334 : text := " 312010  6 001007                                                                                                     ".
Definition d5335 : text := "           004043                                                                                                     ".
Definition d5336 : text := " 312011  9 202131                                                                                                     ".
Definition d5337 : text := "           201149                                                                                                     ".
Definition d5338 : text := "           005053                                                                                                     ".
Definition d5339 : text := " 312012  6 202129                                                                                                     ".
Definition d5340 : text := " 312013  6 005042                                                                                                     ".
Definition d5341 : text := "           201135                                                                                                     ".
Definition d5342 : text := " 312014  8 312010                                                                                                     ".
Definition d5343 : text := "           312011                                                                                                     ".
Definition d5344 : text := "           105056                                                                                                     ".
Definition d5345 : text := "           005042                                                                                                     ".
Definition d5346 : text := "           005052                                                                                                     ".
Definition d5347 : text := "           312012                                                                                                     ".
Definition d5348 : text := "           312013                                                                                                     ".
Definition d5349 : text := " 312015 10 109011                                                                                                     ".
Definition d5350 : text := " 312016  3 312010                                                                                                     ".
Definition d5351 : text := "           312015                                                                                                     ".
Definition d5352 : text := " 312017 10 109008                                                                                                     ".
Definition d5353 : text := " 312018  3 312010                                                                                                     ".
Definition d5354 : text := "           312017                                                                                                     ".
Definition d5355 : text := " 312019 13 301047                                                                                                     ".
Definition d5356 : text := "           301048                                                                                                     ".
Definition d5357 : text := "           015015                                                                                                     ".
Definition d5358 : text := "           029002                                                                                                     ".
Definition d5359 : text := "           021076                                                                                                     ".
Definition d5360 : text := "           106012                                                                                                     ".
Definition d5361 : text := "           201129                                                                                                     ".
Definition d5362 : text := "           006030                                                                                                     ".
Definition d5363 : text := "           102012                                                                                                     ".
Definition d5364 : text := "           005030                                                                                                     ".
Definition d5365 : text := "           021075                                                                                                     ".
Definition d5366 : text := "           021066                                                                                                     ".
Definition d5367 : text := " 312020 11 301047                                                                                                     ".
Definition d5368 : text := "           104012                                                                                                     ".
Definition d5369 : text := " 312021  6 301047                                                                                                     ".
Definition d5370 : text := "           301049                                                                                                     ".
Definition d5371 : text := "           021067                                                                                                     ".
Definition d5372 : text := " 312022 15 301047                                                                                                     ".
Definition d5373 : text := "           011050                                                                                                     ".
Definition d5374 : text := "           022070                                                                                                     ".
Definition d5375 : text := "           022026                                                                                                     ".
Definition d5376 : text := "           312041                                                                                                     ".
Definition d5377 : text := "           010050                                                                                                     ".
Definition d5378 : text := "           021068                                                                                                     ".
Definition d5379 : text := "           021071                                                                                                     ".
Definition d5380 : text := "           021072                                                                                                     ".
Definition d5381 : text := "           021073                                                                                                     ".
Definition d5382 : text := "           312042                                                                                                     ".
Definition d5383 : text := " 312023  7 301047                                                                                                     ".
Definition d5384 : text := "           103003                                                                                                     ".
Definition d5385 : text := "           022050                                                                                                     ".
Definition d5386 : text := "           021069                                                                                                     ".
Definition d5387 : text := "           021085                                                                                                     ".
Definition d5388 : text := " 312024 11 312020                                                                                                     ".
Definition d5389 : text := "           025014                                                                                                     ".
Definition d5390 : text := "           022101                                                                                                     ".
Definition d5391 : text := "           022097                                                                                                     ".
Definition d5392 : text := "           022098                                                                                                     ".
Definition d5393 : text := "           022099                                                                                                     ".
Definition d5394 : text := "           022100                                                                                                     ".
Definition d5395 : text := " 312025 11 312019                                                                                                     ".
Definition d5396 : text := " 312026 19 301046                                                                                                     ".
Definition d5397 : text := "           312031                                                                                                     ".
Definition d5398 : text := "           312030                                                                                                     ".
Definition d5399 : text := "           021110                                                                                                     ".
Definition d5400 : text := "           321027                                                                                                     ".
Definition d5401 : text := "           021111                                                                                                     ".
Definition d5402 : text := "           021112                                                                                                     ".
Definition d5403 : text := "           021113                                                                                                     ".
Definition d5404 : text := " 312027  9 301047                                                                                                     ".
Definition d5405 : text := "           105009                                                                                                     ".
Definition d5406 : text := "           021070                                                                                                     ".
Definition d5407 : text := " 312028 26 301046                                                                                                     ".
Definition d5408 : text := "           008025                                                                                                     ".
Definition d5409 : text := "           201136                                                                                                     ".
Definition d5410 : text := "           312032                                                                                                     ".
Definition d5411 : text := "           312033                                                                                                     ".
Definition d5412 : text := "           321028                                                                                                     ".
Definition d5413 : text := " 312030 13 201130                                                                                                     ".
Definition d5414 : text := "           011052                                                                                                     ".
Definition d5415 : text := "           011053                                                                                                     ".
Definition d5416 : text := "           021104                                                                                                     ".
Definition d5417 : text := " 312031  8 005034                                                                                                     ".
Definition d5418 : text := "           006034                                                                                                     ".
Definition d5419 : text := "           021109                                                                                                     ".
Definition d5420 : text := "           011081                                                                                                     ".
Definition d5421 : text := "           011082                                                                                                     ".
Definition d5422 : text := "           021101                                                                                                     ".
Definition d5423 : text := "           021102                                                                                                     ".
Definition d5424 : text := "           021103                                                                                                     ".
Definition d5425 : text := " 312032  4 021120                                                                                                     ".
Definition d5426 : text := "           021121                                                                                                     ".
Definition d5427 : text := "           021122                                                                                                     ".
Definition d5428 : text := " 312033  4 002104                                                                                                     ".
Definition d5429 : text := "           012065                                                                                                     ".
Definition d5430 : text := " 312041  5 201141                                                                                                     ".
Definition d5431 : text := " 312042  6 021077                                                                                                     ".
Definition d5432 : text := "           021078                                                                                                     ".
Definition d5433 : text := "           021079                                                                                                     ".
Definition d5434 : text := "           021080                                                                                                     ".
Definition d5435 : text := "           021081                                                                                                     ".
Definition d5436 : text := "           021082                                                                                                     ".
Definition d5437 : text := " 312045 21 001007                                                                                                     ".
Definition d5438 : text := "           001096                                                                                                     ".
Definition d5439 : text := "           025061                                                                                                     ".
Definition d5440 : text := "           012180                                                                                                     ".
Definition d5441 : text := "           012181                                                                                                     ".
Definition d5442 : text := "           012182                                                                                                     ".
Definition d5443 : text := "           012183                                                                                                     ".
Definition d5444 : text := "           012184                                                                                                     ".
Definition d5445 : text := "           012185                                                                                                     ".
Definition d5446 : text := "           002174                                                                                                     ".
Definition d5447 : text := "           021086                                                                                                     ".
Definition d5448 : text := "           012186                                                                                                     ".
Definition d5449 : text := "           021087                                                                                                     ".
Definition d5450 : text := "           012187                                                                                                     ".
Definition d5451 : text := "           033043                                                                                                     ".
Definition d5452 : text := " 312050 23 001007                                                                                                     ".
Definition d5453 : text := "           010080                                                                                                     ".
Definition d5454 : text := "           027080                                                                                                     ".
Definition d5455 : text := "           013093                                                                                                     ".
Definition d5456 : text := "           013095                                                                                                     ".
Definition d5457 : text := " 312051 48 001007                                                                                                     ".
Definition d5458 : text := "           008075                                                                                                     ".
Definition d5459 : text := "           010032                                                                                                     ".
Definition d5460 : text := "           010033                                                                                                     ".
Definition d5461 : text := "           010034                                                                                                     ".
Definition d5462 : text := "           025110                                                                                                     ".
Definition d5463 : text := "           025111                                                                                                     ".
Definition d5464 : text := "           025102                                                                                                     ".
Definition d5465 : text := "           002104                                                                                                     ".
Definition d5466 : text := "           025103                                                                                                     ".
Definition d5467 : text := "           025104                                                                                                     ".
Definition d5468 : text := "           025105                                                                                                     ".
Definition d5469 : text := "           025106                                                                                                     ".
Definition d5470 : text := "           025107                                                                                                     ".
Definition d5471 : text := "           025108                                                                                                     ".
Definition d5472 : text := "           021130                                                                                                     ".
Definition d5473 : text := "           021131                                                                                                     ".
Definition d5474 : text := "           021132                                                                                                     ".
Definition d5475 : text := "           021133                                                                                                     ".
Definition d5476 : text := "           021134                                                                                                     ".
Definition d5477 : text := "           107018                                                                                                     ".
Definition d5478 : text := "           105024                                                                                                     ".
Definition d5479 : text := "           021135                                                                                                     ".
Definition d5480 : text := "           021136                                                                                                     ".
Definition d5481 : text := "           033044                                                                                                     ".
Definition d5482 : text := " 312052 77 001007                                                                                                     ".
Definition d5483 : text := "           025120                                                                                                     ".
Definition d5484 : text := "           025121                                                                                                     ".
Definition d5485 : text := "           025124                                                                                                     ".
Definition d5486 : text := "           025125                                                                                                     ".
Definition d5487 : text := "           025122                                                                                                     ".
Definition d5488 : text := "           025123                                                                                                     ".
Definition d5489 : text := "           002119                                                                                                     ".
Definition d5490 : text := "           033047                                                                                                     ".
Definition d5491 : text := "           010081                                                                                                     ".
Definition d5492 : text := "           010082                                                                                                     ".
Definition d5493 : text := "           010083                                                                                                     ".
Definition d5494 : text := "           010084                                                                                                     ".
Definition d5495 : text := "           002116                                                                                                     ".
Definition d5496 : text := "           002117                                                                                                     ".
Definition d5497 : text := "           002118                                                                                                     ".
Definition d5498 : text := "           002156                                                                                                     ".
Definition d5499 : text := "           002157                                                                                                     ".
Definition d5500 : text := "           014055                                                                                                     ".
Definition d5501 : text := "           022150                                                                                                     ".
Definition d5502 : text := "           022151                                                                                                     ".
Definition d5503 : text := "           022152                                                                                                     ".
Definition d5504 : text := "           022153                                                                                                     ".
Definition d5505 : text := "           022154                                                                                                     ".
Definition d5506 : text := "           022155                                                                                                     ".
Definition d5507 : text := "           022156                                                                                                     ".
Definition d5508 : text := "           022157                                                                                                     ".
Definition d5509 : text := "           022158                                                                                                     ".
Definition d5510 : text := "           022159                                                                                                     ".
Definition d5511 : text := "           021137                                                                                                     ".
Definition d5512 : text := "           021138                                                                                                     ".
Definition d5513 : text := "           021139                                                                                                     ".
Definition d5514 : text := "           021140                                                                                                     ".
Definition d5515 : text := "           021141                                                                                                     ".
Definition d5516 : text := "           021142                                                                                                     ".
Definition d5517 : text := "           010085                                                                                                     ".
Definition d5518 : text := "           010086                                                                                                     ".
Definition d5519 : text := "           010087                                                                                                     ".
Definition d5520 : text := "           010088                                                                                                     ".
Definition d5521 : text := "           010089                                                                                                     ".
Definition d5522 : text := "           010090                                                                                                     ".
Definition d5523 : text := "           010091                                                                                                     ".
Definition d5524 : text := "           010092                                                                                                     ".
Definition d5525 : text := "           010093                                                                                                     ".
Definition d5526 : text := "           025126                                                                                                     ".
Definition d5527 : text := "           025127                                                                                                     ".
Definition d5528 : text := "           025128                                                                                                     ".
Definition d5529 : text := "           025129                                                                                                     ".
Definition d5530 : text := "           025130                                                                                                     ".
Definition d5531 : text := "           025131                                                                                                     ".
Definition d5532 : text := "           025132                                                                                                     ".
Definition d5533 : text := "           025133                                                                                                     ".
Definition d5534 : text := "           025134                                                                                                     ".
Definition d5535 : text := "           025135                                                                                                     ".
Definition d5536 : text := "           025136                                                                                                     ".
Definition d5537 : text := "           025137                                                                                                     ".
Definition d5538 : text := "           013096                                                                                                     ".
Definition d5539 : text := "           013097                                                                                                     ".
Definition d5540 : text := "           011095                                                                                                     ".
Definition d5541 : text := "           011096                                                                                                     ".
Definition d5542 : text := "           012188                                                                                                     ".
Definition d5543 : text := "           012189                                                                                                     ".
Definition d5544 : text := "           002158                                                                                                     ".
Definition d5545 : text := "           002159                                                                                                     ".
Definition d5546 : text := "           033052                                                                                                     ".
Definition d5547 : text := "           033053                                                                                                     ".
Definition d5548 : text := "           021143                                                                                                     ".
Definition d5549 : text := "           021144                                                                                                     ".
Definition d5550 : text := " 312053 54 001007                                                                                                     ".
Definition d5551 : text := "           022160                                                                                                     ".
Definition d5552 : text := "           025138                                                                                                     ".
Definition d5553 : text := "           033048                                                                                                     ".
Definition d5554 : text := "           033049                                                                                                     ".
Definition d5555 : text := "           106036                                                                                                     ".
Definition d5556 : text := "           104024                                                                                                     ".
Definition d5557 : text := "           022161                                                                                                     ".
Definition d5558 : text := " 312200 10 301237                                                                                                     ".
Definition d5559 : text := "           301238                                                                                                     ".
Definition d5560 : text := "           021206                                                                                                     ".
Definition d5561 : text := "           006232                                                                                                     ".
Definition d5562 : text := "           005232                                                                                                     ".
Definition d5563 : text := "           021205                                                                                                     ".
Definition d5564 : text := "           021196                                                                                                     ".
Definition d5565 : text := " 312201  6 301237                                                                                                     ".
Definition d5566 : text := "           301239                                                                                                     ".
Definition d5567 : text := "           021197                                                                                                     ".
Definition d5568 : text := " 312202 13 301237                                                                                                     ".
Definition d5569 : text := "           301240                                                                                                     ".
Definition d5570 : text := "           022243                                                                                                     ".
Definition d5571 : text := "           301241                                                                                                     ".
Definition d5572 : text := "           021198                                                                                                     ".
Definition d5573 : text := "           021201                                                                                                     ".
Definition d5574 : text := "           021202                                                                                                     ".
Definition d5575 : text := "           021203                                                                                                     ".
Definition d5576 : text := "           301242                                                                                                     ".
Definition d5577 : text := " 312203  8 301237                                                                                                     ".
Definition d5578 : text := "           021204                                                                                                     ".
Definition d5579 : text := "           021199                                                                                                     ".
Definition d5580 : text := "           021214                                                                                                     ".
Definition d5581 : text := "           021215                                                                                                     ".
Definition d5582 : text := " 312204 12 312201                                                                                                     ".
Definition d5583 : text := "           021200                                                                                                     ".
Definition d5584 : text := "           021213                                                                                                     ".
Definition d5585 : text := "           055003                                                                                                     ".
Definition d5586 : text := " 312207  3 312202                                                                                                     ".
Definition d5587 : text := "           301202                                                                                                     ".
Definition d5588 : text := "           033191                                                                                                     ".
Definition d5589 : text := " 312208 17 301202                                                                                                     ".
Definition d5590 : text := "           302205                                                                                                     ".
Definition d5591 : text := "           001192                                                                                                     ".
Definition d5592 : text := " 312209 11 301202                                                                                                     ".
Definition d5593 : text := "           302206                                                                                                     ".
Definition d5594 : text := "           022192                                                                                                     ".
Definition d5595 : text := "           022191                                                                                                     ".
Definition d5596 : text := " 312210 13 312202                                                                                                     ".
Definition d5597 : text := "           015202                                                                                                     ".
Definition d5598 : text := "           304228                                                                                                     ".
Definition d5599 : text := "           304229                                                                                                     ".
Definition d5600 : text := " 313009  4 021001                                                                                                     ".
Definition d5601 : text := "           021001                                                                                                     ".
Definition d5602 : text := " 313010  4 021036                                                                                                     ".
Definition d5603 : text := "           021036                                                                                                     ".
Definition d5604 : text := " 313031  5 006002                                                                                                     ".
Definition d5605 : text := "           006012                                                                                                     ".
Definition d5606 : text := "           031002                                                                                                     ".
Definition d5607 : text := "           030001                                                                                                     ".
Definition d5608 : text := " 313032  5 005002                                                                                                     ".
Definition d5609 : text := "           005012                                                                                                     ".
Definition d5610 : text := "           313031                                                                                                     ".
Definition d5611 : text := " 313041 13 006002                                                                                                     ".
Definition d5612 : text := "           110000                                                                                                     ".
Definition d5613 : text := "           031012                                                                                                     ".
Definition d5614 : text := " 313042  5 005002                                                                                                     ".
Definition d5615 : text := "           313041                                                                                                     ".
Definition d5616 : text := " 313043 16 006002                                                                                                     ".
Definition d5617 : text := "           005002                                                                                                     ".
Definition d5618 : text := "           112000                                                                                                     ".
Definition d5619 : text := "           031011                                                                                                     ".
Definition d5620 : text := " 315001  5 001011                                                                                                     ".
Definition d5621 : text := "           306001                                                                                                     ".
Definition d5622 : text := " 315002  5 001011                                                                                                     ".
Definition d5623 : text := "           306004                                                                                                     ".
Definition d5624 : text := " 316001 10 301011                                                                                                     ".
Definition d5625 : text := "           001021                                                                                                     ".
Definition d5626 : text := "           002041                                                                                                     ".
Definition d5627 : text := "           019001                                                                                                     ".
Definition d5628 : text := "           019002                                                                                                     ".
Definition d5629 : text := "           019003                                                                                                     ".
Definition d5630 : text := "           019004                                                                                                     ".
Definition d5631 : text := " 316002 15 008021                                                                                                     ".
Definition d5632 : text := " 316003 12 110000                                                                                                     ".
Definition d5633 : text := "           008011                                                                                                     ".
Definition d5634 : text := "           008007                                                                                                     ".
Definition d5635 : text := " 316004 13 111000                                                                                                     ".
Definition d5636 : text := " 316005 10 108000                                                                                                     ".
Definition d5637 : text := "           008005                                                                                                     ".
Definition d5638 : text := "           001026                                                                                                     ".
Definition d5639 : text := " 316006 14 112000                                                                                                     ".
Definition d5640 : text := " 316007 12 110000                                                                                                     ".
Definition d5641 : text := "           019005                                                                                                     ".
Definition d5642 : text := "           019006                                                                                                     ".
Definition d5643 : text := " 316008 13 111000                                                                                                     ".
Definition d5644 : text := " 316009 13 111000                                                                                                     ".
Definition d5645 : text := " 316010  9 107000                                                                                                     ".
Definition d5646 : text := "           001022                                                                                                     ".
Definition d5647 : text := " 316011 19 116000                                                                                                     ".
Definition d5648 : text := "           020090                                                                                                     ".
Definition d5649 : text := " 316022 24 001032                                                                                                     ".
Definition d5650 : text := "           019010                                                                                                     ".
Definition d5651 : text := "           118000                                                                                                     ".
Definition d5652 : text := "           004014                                                                                                     ".
Definition d5653 : text := "           004075                                                                                                     ".
Definition d5654 : text := "           011040                                                                                                     ".
Definition d5655 : text := "           019008                                                                                                     ".
Definition d5656 : text := "           102002                                                                                                     ".
Definition d5657 : text := " 318001  2 301025                                                                                                     ".
Definition d5658 : text := "           024011                                                                                                     ".
Definition d5659 : text := " 318003  4 301026                                                                                                     ".
Definition d5660 : text := "           024005                                                                                                     ".
Definition d5661 : text := "           024004                                                                                                     ".
Definition d5662 : text := "           024021                                                                                                     ".
Definition d5663 : text := " 318004  6 301025                                                                                                     ".
Definition d5664 : text := "           004023                                                                                                     ".
Definition d5665 : text := "           024022                                                                                                     ".
Definition d5666 : text := " 321001  6 002101                                                                                                     ".
Definition d5667 : text := "           002114                                                                                                     ".
Definition d5668 : text := "           002105                                                                                                     ".
Definition d5669 : text := "           002106                                                                                                     ".
Definition d5670 : text := "           002107                                                                                                     ".
Definition d5671 : text := " 321003  4 021051                                                                                                     ".
Definition d5672 : text := "           021014                                                                                                     ".
Definition d5673 : text := "           021017                                                                                                     ".
Definition d5674 : text := "           021030                                                                                                     ".
Definition d5675 : text := " 321004  5 301031                                                                                                     ".
Definition d5676 : text := "           321003                                                                                                     ".
Definition d5677 : text := " 321005 12 025004                                                                                                     ".
Definition d5678 : text := "           002122                                                                                                     ".
Definition d5679 : text := "           002123                                                                                                     ".
Definition d5680 : text := "           002124                                                                                                     ".
Definition d5681 : text := "           002125                                                                                                     ".
Definition d5682 : text := "           002126                                                                                                     ".
Definition d5683 : text := "           002127                                                                                                     ".
Definition d5684 : text := "           002128                                                                                                     ".
Definition d5685 : text := "           002129                                                                                                     ".
Definition d5686 : text := "           002130                                                                                                     ".
Definition d5687 : text := "           002131                                                                                                     ".
Definition d5688 : text := " 321006  4 025001                                                                                                     ".
Definition d5689 : text := "           025002                                                                                                     ".
Definition d5690 : text := "           025003                                                                                                     ".
Definition d5691 : text := "           025005                                                                                                     ".
Definition d5692 : text := " 321007  8 025009                                                                                                     ".
Definition d5693 : text := "           025011                                                                                                     ".
Definition d5694 : text := "           025012                                                                                                     ".
Definition d5695 : text := "           025013                                                                                                     ".
Definition d5696 : text := "           025015                                                                                                     ".
Definition d5697 : text := "           025016                                                                                                     ".
Definition d5698 : text := "           025017                                                                                                     ".
Definition d5699 : text := " 321008  3 025006                                                                                                     ".
Definition d5700 : text := "           025007                                                                                                     ".
Definition d5701 : text := "           025008                                                                                                     ".
Definition d5702 : text := " 321009  2 025018                                                                                                     ".
Definition d5703 : text := "           025019                                                                                                     ".
Definition d5704 : text := " 321010 13 002101                                                                                                     ".
Definition d5705 : text := "           002102                                                                                                     ".
Definition d5706 : text := "           002103                                                                                                     ".
Definition d5707 : text := "           002108                                                                                                     ".
Definition d5708 : text := "           002109                                                                                                     ".
Definition d5709 : text := "           002110                                                                                                     ".
Definition d5710 : text := "           002132                                                                                                     ".
Definition d5711 : text := "           002133                                                                                                     ".
Definition d5712 : text := " 321011  3 030031                                                                                                     ".
Definition d5713 : text := "           030032                                                                                                     ".
Definition d5714 : text := " 321012  3 101000                                                                                                     ".
Definition d5715 : text := "           002135                                                                                                     ".
Definition d5716 : text := " 321021 15 002003                                                                                                     ".
Definition d5717 : text := "           002101                                                                                                     ".
Definition d5718 : text := "           025001                                                                                                     ".
Definition d5719 : text := " 321022 11 010007                                                                                                     ".
Definition d5720 : text := "           204001                                                                                                     ".
Definition d5721 : text := "           011006                                                                                                     ".
Definition d5722 : text := " 321023  9 007007                                                                                                     ".
Definition d5723 : text := "           021091                                                                                                     ".
Definition d5724 : text := " 321024  7 007007                                                                                                     ".
Definition d5725 : text := "           204002                                                                                                     ".
Definition d5726 : text := "           012007                                                                                                     ".
Definition d5727 : text := " 321025 17 007007                                                                                                     ".
Definition d5728 : text := "           021092                                                                                                     ".
Definition d5729 : text := "           025092                                                                                                     ".
Definition d5730 : text := " 321026 10 010007                                                                                                     ".
Definition d5731 : text := "           025091                                                                                                     ".
Definition d5732 : text := "           011071                                                                                                     ".
Definition d5733 : text := "           011072                                                                                                     ".
Definition d5734 : text := "           011073                                                                                                     ".
Definition d5735 : text := "           011074                                                                                                     ".
Definition d5736 : text := " 321027 18 021118                                                                                                     ".
Definition d5737 : text := "           021105                                                                                                     ".
Definition d5738 : text := "           021106                                                                                                     ".
Definition d5739 : text := "           021107                                                                                                     ".
Definition d5740 : text := "           021114                                                                                                     ".
Definition d5741 : text := "           021115                                                                                                     ".
Definition d5742 : text := "           021116                                                                                                     ".
Definition d5743 : text := "           008018                                                                                                     ".
Definition d5744 : text := "           021117                                                                                                     ".
Definition d5745 : text := " 321028 18 021118                                                                                                     ".
Definition d5746 : text := "           021123                                                                                                     ".
Definition d5747 : text := "           001024".
Definition d5748 : text := "           007011".
Definition d5749 : text := "           025144".
Definition d5750 : text := " D00002  2 B00002   ".
Definition d5751 : text := "           B00003   ".
Definition d5752 : text := " D00003  3 B00010   ".
Definition d5753 : text := "           B00011   ".
Definition d5754 : text := "           B00012   ".
Definition d5755 : text := " D00004  9 D00003   ".
Definition d5756 : text := "           B00013   ".
Definition d5757 : text := "           B00014   ".
Definition d5758 : text := "           B00015   ".
Definition d5759 : text := "           B00016   ".
Definition d5760 : text := "           B00017   ".
Definition d5761 : text := "           B00018   ".
Definition d5762 : text := "           B00019   ".
Definition d5763 : text := "           B00020   ".
Definition d5764 : text := " D00010  4 D00003   ".
Definition d5765 : text := "           R01000   ".
Definition d5766 : text := "           B31001   ".
Definition d5767 : text := "           B00030   ".
Definition d5768 : text := " D01001  2 B01001   ".
Definition d5769 : text := "           B01002   ".
Definition d5770 : text := " D01002  3 B01003   ".
Definition d5771 : text := "           B01004   ".
Definition d5772 : text := "           B01005   ".
Definition d5773 : text := " D01003  3 B01011   ".
Definition d5774 : text := "           B01012   ".
Definition d5775 : text := "           B01013   ".
Definition d5776 : text := " D01004  4 B01001   ".
Definition d5777 : text := "           B01015   ".
Definition d5778 : text := "           B02001   ".
Definition d5779 : text := " D01011  3 B04001   ".
Definition d5780 : text := "           B04002   ".
Definition d5781 : text := "           B04003   ".
Definition d5782 : text := " D01012  2 B04004   ".
Definition d5783 : text := "           B04005   ".
Definition d5784 : text := " D01013  3 B04004   ".
Definition d5785 : text := "           B04006   ".
Definition d5786 : text := " D01021  2 B05001   ".
Definition d5787 : text := "           B06001   ".
Definition d5788 : text := " D01022  3 B05001   ".
Definition d5789 : text := "           B07001   ".
Definition d5790 : text := " D01023  2 B05002   ".
Definition d5791 : text := "           B06002   ".
Definition d5792 : text := " D01024  3 B05002   ".
Definition d5793 : text := " D01025  3 D01023   ".
Definition d5794 : text := "           D01012   ".
Definition d5795 : text := " D01026  7 D01021   ".
Definition d5796 : text := "           B04004   ".
Definition d5797 : text := " D01031  5 D01001   ".
Definition d5798 : text := "           D01011   ".
Definition d5799 : text := "           D01022   ".
Definition d5800 : text := " D01032  5 D01001   ".
Definition d5801 : text := "           D01024   ".
Definition d5802 : text := " D01033  5 B01005   ".
Definition d5803 : text := "           D01021   ".
Definition d5804 : text := " D01034  5 B01005   ".
Definition d5805 : text := "           D01023   ".
Definition d5806 : text := " D01035  7 B01005   ".
Definition d5807 : text := " D01036  5 D01003   ".
Definition d5808 : text := " D01037  6 D01001   ".
Definition d5809 : text := "           B02011   ".
Definition d5810 : text := "           B02012   ".
Definition d5811 : text := " D01038  6 D01001   ".
Definition d5812 : text := " D01039  6 D01003   ".
Definition d5813 : text := " D01040  6 D01003   ".
Definition d5814 : text := " D01041  5 B01007   ".
Definition d5815 : text := "           B02021   ".
Definition d5816 : text := "           B02022   ".
Definition d5817 : text := " D01042  2 D01041   ".
Definition d5818 : text := " D01043  5 B01007   ".
Definition d5819 : text := "           B02023   ".
Definition d5820 : text := "           D01013   ".
Definition d5821 : text := " D01044  5 B01007   ".
Definition d5822 : text := "           B02024   ".
Definition d5823 : text := " D01045  9 D01011   ".
Definition d5824 : text := "           C01138   ".
Definition d5825 : text := "           C02131   ".
Definition d5826 : text := "           C01000   ".
Definition d5827 : text := "           C02000   ".
Definition d5828 : text := "           D04030   ".
Definition d5829 : text := "           D04031   ".
Definition d5830 : text := " D01046 10 B01007   ".
Definition d5831 : text := "           B02048   ".
Definition d5832 : text := "           B21119   ".
Definition d5833 : text := "           B25060   ".
Definition d5834 : text := "           C02124   ".
Definition d5835 : text := "           B02026   ".
Definition d5836 : text := "           B02027   ".
Definition d5837 : text := "           B05040   ".
Definition d5838 : text := " D01047 15 B01007   ".
Definition d5839 : text := "           B01033   ".
Definition d5840 : text := "           B01034   ".
Definition d5841 : text := "           D01045   ".
Definition d5842 : text := " D01048 14 B02104   ".
Definition d5843 : text := "           B02121   ".
Definition d5844 : text := "           B02113   ".
Definition d5845 : text := "           B02111   ".
Definition d5846 : text := "           B02140   ".
Definition d5847 : text := "           C02127   ".
Definition d5848 : text := "           C02126   ".
Definition d5849 : text := "           B25010   ".
Definition d5850 : text := "           B21064   ".
Definition d5851 : text := " D01049  5 B02111   ".
Definition d5852 : text := "           B02112   ".
Definition d5853 : text := "           B21062   ".
Definition d5854 : text := "           B21063   ".
Definition d5855 : text := "           B21065   ".
Definition d5856 : text := " D01051  6 B01006   ".
Definition d5857 : text := "           B02061   ".
Definition d5858 : text := "           B08004   ".
Definition d5859 : text := " D01055  7 B01005   ".
Definition d5860 : text := "           B01014   ".
Definition d5861 : text := " D01062  3 R01000   ".
Definition d5862 : text := "           D01001   ".
Definition d5863 : text := " D01065  8 B01006   ".
Definition d5864 : text := "           B01008   ".
Definition d5865 : text := "           B02002   ".
Definition d5866 : text := "           B02005   ".
Definition d5867 : text := "           B02062   ".
Definition d5868 : text := "           B02070   ".
Definition d5869 : text := "           B02065   ".
Definition d5870 : text := " D01066  6 D01011   ".
Definition d5871 : text := "           B07004   ".
Definition d5872 : text := "           B02064   ".
Definition d5873 : text := " D01071  5 B01007   ".
Definition d5874 : text := "           B01031   ".
Definition d5875 : text := "           B02020   ".
Definition d5876 : text := "           B02028   ".
Definition d5877 : text := "           B02029   ".
Definition d5878 : text := " D01072  4 D01071   ".
Definition d5879 : text := " D01090  6 D01004   ".
Definition d5880 : text := "           B07030   ".
Definition d5881 : text := "           B07031   ".
Definition d5882 : text := " D01091 10 B02180   ".
Definition d5883 : text := "           B02181   ".
Definition d5884 : text := "           B02182   ".
Definition d5885 : text := "           B02183   ".
Definition d5886 : text := "           B02184   ".
Definition d5887 : text := "           B02179   ".
Definition d5888 : text := "           B02186   ".
Definition d5889 : text := "           B02187   ".
Definition d5890 : text := "           B02188   ".
Definition d5891 : text := "           B02189   ".
Definition d5892 : text := " D01192 13 D01011   ".
Definition d5893 : text := "           B29001   ".
Definition d5894 : text := "           B05002   ".
Definition d5895 : text := "           B05033   ".
Definition d5896 : text := "           B06033   ".
Definition d5897 : text := "           B30021   ".
Definition d5898 : text := "           B30022   ".
Definition d5899 : text := "           B29201   ".
Definition d5900 : text := " D02001  4 B10004   ".
Definition d5901 : text := "           B10051   ".
Definition d5902 : text := "           B10061   ".
Definition d5903 : text := "           B10063   ".
Definition d5904 : text := " D02002  5 B10004   ".
Definition d5905 : text := "           B10003   ".
Definition d5906 : text := " D02003  9 B11011   ".
Definition d5907 : text := "           B11012   ".
Definition d5908 : text := "           B12004   ".
Definition d5909 : text := "           B12006   ".
Definition d5910 : text := "           B13003   ".
Definition d5911 : text := "           B20001   ".
Definition d5912 : text := "           B20003   ".
Definition d5913 : text := "           B20004   ".
Definition d5914 : text := "           B20005   ".
Definition d5915 : text := " D02004  7 B20010   ".
Definition d5916 : text := "           B08002   ".
Definition d5917 : text := "           B20011   ".
Definition d5918 : text := "           B20013   ".
Definition d5919 : text := "           B20012   ".
Definition d5920 : text := " D02005  4 B08002   ".
Definition d5921 : text := " D02006  4 B10004   ".
Definition d5922 : text := "           B10062   ".
Definition d5923 : text := " D02011  3 D02001   ".
Definition d5924 : text := "           D02003   ".
Definition d5925 : text := "           D02004   ".
Definition d5926 : text := " D02012  3 D02002   ".
Definition d5927 : text := " D02013  5 D02006   ".
Definition d5928 : text := "           D02005   ".
Definition d5929 : text := " D02021  3 B22001   ".
Definition d5930 : text := "           B22011   ".
Definition d5931 : text := "           B22021   ".
Definition d5932 : text := " D02022  3 B22002   ".
Definition d5933 : text := "           B22012   ".
Definition d5934 : text := "           B22022   ".
Definition d5935 : text := " D02023  3 B22003   ".
Definition d5936 : text := "           B22013   ".
Definition d5937 : text := "           B22023   ".
Definition d5938 : text := " D02024  3 D02022   ".
Definition d5939 : text := "           R01002   ".
Definition d5940 : text := "           D02023   ".
Definition d5941 : text := " D02051 12 B10004   ".
Definition d5942 : text := "           B12051   ".
Definition d5943 : text := "           B12016   ".
Definition d5944 : text := "           B12017   ".
Definition d5945 : text := "           B13004   ".
Definition d5946 : text := "           R02004   ".
Definition d5947 : text := "           B08051   ".
Definition d5948 : text := "           B08020   ".
Definition d5949 : text := " D02069  4 B07032   ".
Definition d5950 : text := "           B07033   ".
Definition d5951 : text := "           B33041   ".
Definition d5952 : text := " D02070  8 B07032   ".
Definition d5953 : text := "           B11001   ".
Definition d5954 : text := "           B11002   ".
Definition d5955 : text := "           B11043   ".
Definition d5956 : text := "           B11041   ".
Definition d5957 : text := "           B11016   ".
Definition d5958 : text := "           B11017   ".
Definition d5959 : text := " D02071 14 B07032   ".
Definition d5960 : text := "           B08021   ".
Definition d5961 : text := "           B04025   ".
Definition d5962 : text := "           R03002   ".
Definition d5963 : text := " D02072  5 B07032   ".
Definition d5964 : text := "           B12101   ".
Definition d5965 : text := "           B12103   ".
Definition d5966 : text := " D02073  7 B20010   ".
Definition d5967 : text := "           R05004   ".
Definition d5968 : text := " D02074  4 B20003   ".
Definition d5969 : text := " D02075  5 B08021   ".
Definition d5970 : text := "           B13055   ".
Definition d5971 : text := "           B13058   ".
Definition d5972 : text := " D02076  7 B20021   ".
Definition d5973 : text := "           B20022   ".
Definition d5974 : text := "           B26020   ".
Definition d5975 : text := "           B20023   ".
Definition d5976 : text := "           B20024   ".
Definition d5977 : text := "           B20025   ".
Definition d5978 : text := "           B20026   ".
Definition d5979 : text := " D02077  8 B07032   ".
Definition d5980 : text := "           B12111   ".
Definition d5981 : text := "           B12112   ".
Definition d5982 : text := "           B07032   ".
Definition d5983 : text := " D02078  4 B02176   ".
Definition d5984 : text := "           B20062   ".
Definition d5985 : text := "           B02177   ".
Definition d5986 : text := "           B13013   ".
Definition d5987 : text := " D02079  5 B07032   ".
Definition d5988 : text := "           B02175   ".
Definition d5989 : text := "           B02178   ".
Definition d5990 : text := "           B13011   ".
Definition d5991 : text := " D02080  3 B02185   ".
Definition d5992 : text := "           B13033   ".
Definition d5993 : text := " D02081  2 B04025   ".
Definition d5994 : text := "           B14031   ".
Definition d5995 : text := " D02082  7 B04025   ".
Definition d5996 : text := "           B14002   ".
Definition d5997 : text := "           B14004   ".
Definition d5998 : text := "           B14016   ".
Definition d5999 : text := "           B14028   ".
Definition d6000 : text := "           B14029   ".
Definition d6001 : text := "           B14030   ".
Definition d6002 : text := " D02083  8 B04025   ".
Definition d6003 : text := "           B08023   ".
Definition d6004 : text := "           B10004   ".
Definition d6005 : text := " D03001  3 B07003   ".
Definition d6006 : text := " D03002  3 B07004   ".
Definition d6007 : text := " D03003  4 B07004   ".
Definition d6008 : text := "           B12001   ".
Definition d6009 : text := "           B12003   ".
Definition d6010 : text := " D03004  6 B07004   ".
Definition d6011 : text := " D03011  4 B07003   ".
Definition d6012 : text := "           B08001   ".
Definition d6013 : text := " D03012  4 B07004   ".
Definition d6014 : text := " D03013  7 B07004   ".
Definition d6015 : text := " D03014  7 B07004   ".
Definition d6016 : text := " D03021  4 B07004   ".
Definition d6017 : text := "           C04007   ".
Definition d6018 : text := "           B31021   ".
Definition d6019 : text := " D03022  3 D03021   ".
Definition d6020 : text := "           C04000   ".
Definition d6021 : text := " D03023  3 D03021   ".
Definition d6022 : text := " D03024  3 D03021   ".
Definition d6023 : text := "           B13016   ".
Definition d6024 : text := " D03025  5 B02025   ".
Definition d6025 : text := "           B12063   ".
Definition d6026 : text := " D03026  6 B07004   ".
Definition d6027 : text := "           B08003   ".
Definition d6028 : text := " D03027  5 B07004   ".
Definition d6029 : text := " D03031  6 B07004   ".
Definition d6030 : text := "           B07021   ".
Definition d6031 : text := "           B07022   ".
Definition d6032 : text := "           B08012   ".
Definition d6033 : text := "           B12061   ".
Definition d6034 : text := " D03032  2 B20011   ".
Definition d6035 : text := "           B20016   ".
Definition d6036 : text := " D03033  2 B20010   ".
Definition d6037 : text := " D03041  8 B02152   ".
Definition d6038 : text := "           B02153   ".
Definition d6039 : text := "           B02154   ".
Definition d6040 : text := "           B12071   ".
Definition d6041 : text := " D04001  5 B08003   ".
Definition d6042 : text := " D04002  4 B08003   ".
Definition d6043 : text := " D04003  2 B08003   ".
Definition d6044 : text := " D04004  4 B08003   ".
Definition d6045 : text := "           B20010   ".
Definition d6046 : text := " D04005  4 B02024   ".
Definition d6047 : text := " D04006  3 B14001   ".
Definition d6048 : text := "           B14001   ".
Definition d6049 : text := "           B14003   ".
Definition d6050 : text := " D04011 27 B02163   ".
Definition d6051 : text := "           B02164   ".
Definition d6052 : text := "           B07024   ".
Definition d6053 : text := "           B02057   ".
Definition d6054 : text := "           B04001   ".
Definition d6055 : text := "           B04024   ".
Definition d6056 : text := "           R10004   ".
Definition d6057 : text := "           R03010   ".
Definition d6058 : text := "           B02163   ".
Definition d6059 : text := " D04030  3 B27031   ".
Definition d6060 : text := "           B28031   ".
Definition d6061 : text := "           B10031   ".
Definition d6062 : text := " D04031  3 B01041   ".
Definition d6063 : text := "           B01042   ".
Definition d6064 : text := "           B01043   ".
Definition d6065 : text := " D04032  5 B02153   ".
Definition d6066 : text := "           B20081   ".
Definition d6067 : text := "           B20082   ".
Definition d6068 : text := " D04033  8 B02152   ".
Definition d6069 : text := "           B02166   ".
Definition d6070 : text := "           B02167   ".
Definition d6071 : text := "           B12075   ".
Definition d6072 : text := "           B12076   ".
Definition d6073 : text := " D04034  9 R02004   ".
Definition d6074 : text := "           B27001   ".
Definition d6075 : text := "           B28001   ".
Definition d6076 : text := "           B05043   ".
Definition d6077 : text := "           B33003   ".
Definition d6078 : text := "           B10040   ".
Definition d6079 : text := " D05003  5 D01012   ".
Definition d6080 : text := "           B04065   ".
Definition d6081 : text := "           D05001   ".
Definition d6082 : text := " D05006  6 B13072   ".
Definition d6083 : text := "           B13082   ".
Definition d6084 : text := "           B13019   ".
Definition d6085 : text := "           B13073   ".
Definition d6086 : text := "           B13060   ".
Definition d6087 : text := " D05007  6 D01029   ".
Definition d6088 : text := "           D05006   ".
Definition d6089 : text := " D05008  2 D05006   ".
Definition d6090 : text := "           B12030   ".
Definition d6091 : text := " D05009  6 D01029   ".
Definition d6092 : text := "           D05008   ".
Definition d6093 : text := " D05011  6 D01029   ".
Definition d6094 : text := "           D05010   ".
Definition d6095 : text := " D05018  8 D01029   ".
Definition d6096 : text := "           R03000   ".
Definition d6097 : text := "           D05016   ".
Definition d6098 : text := "           D05017   ".
Definition d6099 : text := " D06001  5 B02032   ".
Definition d6100 : text := "           R02000   ".
Definition d6101 : text := "           B07062   ".
Definition d6102 : text := "           B22042   ".
Definition d6103 : text := " D06002  3 B02031   ".
Definition d6104 : text := "           B22004   ".
Definition d6105 : text := "           B22031   ".
Definition d6106 : text := " D06003  4 B02002   ".
Definition d6107 : text := "           B11011   ".
Definition d6108 : text := " D06004  7 B02032   ".
Definition d6109 : text := "           B02033   ".
Definition d6110 : text := "           B22043   ".
Definition d6111 : text := "           B22062   ".
Definition d6112 : text := " D06005  6 B02031   ".
Definition d6113 : text := " D06006  3 D06003   ".
Definition d6114 : text := "           D06002   ".
Definition d6115 : text := "           B22063   ".
Definition d6116 : text := " D06007  6 B01012   ".
Definition d6117 : text := "           D06008   ".
Definition d6118 : text := "           B27003   ".
Definition d6119 : text := "           B28003   ".
Definition d6120 : text := " D06008  3 B02034   ".
Definition d6121 : text := "           B02035   ".
Definition d6122 : text := "           B02036   ".
Definition d6123 : text := " D06023  8 B01015   ".
Definition d6124 : text := "           B22038   ".
Definition d6125 : text := "           B22039   ".
Definition d6126 : text := "           B22120   ".
Definition d6127 : text := "           B22121   ".
Definition d6128 : text := " D07001  2 D01031   ".
Definition d6129 : text := "           D02011   ".
Definition d6130 : text := " D07002  2 D01032   ".
Definition d6131 : text := " D07003  4 D07001   ".
Definition d6132 : text := " D07004  4 D07002   ".
Definition d6133 : text := " D07005  3 D07001   ".
Definition d6134 : text := "           R01004   ".
Definition d6135 : text := " D07006  3 D07002   ".
Definition d6136 : text := " D07007  2 D01031   ".
Definition d6137 : text := "           D02012   ".
Definition d6138 : text := " D07008  2 D01032   ".
Definition d6139 : text := " D07009  2 D01031   ".
Definition d6140 : text := "           D02013   ".
Definition d6141 : text := " D07011 16 B01063   ".
Definition d6142 : text := "           B07006   ".
Definition d6143 : text := "           B10052   ".
Definition d6144 : text := "           B20009   ".
Definition d6145 : text := " D07012  5 R03000   ".
Definition d6146 : text := "           B05021   ".
Definition d6147 : text := " D07013  8 R06000   ".
Definition d6148 : text := "           B01064   ".
Definition d6149 : text := "           B08014   ".
Definition d6150 : text := "           B20061   ".
Definition d6151 : text := "           B20018   ".
Definition d6152 : text := " D07014  3 R01000   ".
Definition d6153 : text := "           B20019   ".
Definition d6154 : text := " D07015  4 R01000   ".
Definition d6155 : text := "           B20002   ".
Definition d6156 : text := " D07016  3 R01000   ".
Definition d6157 : text := "           B20020   ".
Definition d6158 : text := " D07017  3 R01000   ".
Definition d6159 : text := "           B11070   ".
Definition d6160 : text := " D07018 16 B08016   ".
Definition d6161 : text := "           B08017   ".
Definition d6162 : text := "           R04000   ".
Definition d6163 : text := "           D07014   ".
Definition d6164 : text := " D07020  3 D07011   ".
Definition d6165 : text := "           D07016   ".
Definition d6166 : text := " D07021  9 D07011   ".
Definition d6167 : text := "           D07012   ".
Definition d6168 : text := "           D07013   ".
Definition d6169 : text := "           D07015   ".
Definition d6170 : text := "           D07017   ".
Definition d6171 : text := "           D07018   ".
Definition d6172 : text := " D07022 31 B01015   ".
Definition d6173 : text := "           B33038   ".
Definition d6174 : text := "           B08022   ".
Definition d6175 : text := "           R06025   ".
Definition d6176 : text := "           B01050   ".
Definition d6177 : text := "           B15031   ".
Definition d6178 : text := "           B15032   ".
Definition d6179 : text := "           B08060   ".
Definition d6180 : text := "           B15033   ".
Definition d6181 : text := "           B15034   ".
Definition d6182 : text := "           B15035   ".
Definition d6183 : text := "           C01131   ".
Definition d6184 : text := "           C02129   ".
Definition d6185 : text := "           B15011   ".
Definition d6186 : text := " D08001  3 D01033   ".
Definition d6187 : text := " D08002  3 D01034   ".
Definition d6188 : text := " D08003  3 D01035   ".
Definition d6189 : text := " D08004  3 D01036   ".
Definition d6190 : text := " D08005  2 D08004   ".
Definition d6191 : text := "           D02024   ".
Definition d6192 : text := " D08006  8 B10004   ".
Definition d6193 : text := " D08007  4 D01055   ".
Definition d6194 : text := " D09020  8 D01031   ".
Definition d6195 : text := "           B02003   ".
Definition d6196 : text := "           B07003   ".
Definition d6197 : text := "           B11003   ".
Definition d6198 : text := "           B11004   ".
Definition d6199 : text := "           B11005   ".
Definition d6200 : text := " D09030  8 B15004   ".
Definition d6201 : text := "           B15005   ".
Definition d6202 : text := "           B04015   ".
Definition d6203 : text := "           B08006   ".
Definition d6204 : text := "           B15003   ".
Definition d6205 : text := " D10001  5 D01042   ".
Definition d6206 : text := "           D03031   ".
Definition d6207 : text := "           D03032   ".
Definition d6208 : text := "           R01026   ".
Definition d6209 : text := "           D03025   ".
Definition d6210 : text := " D10002  5 D01042   ".
Definition d6211 : text := "           R01009   ".
Definition d6212 : text := "           D03023   ".
Definition d6213 : text := " D10003  5 D01042   ".
Definition d6214 : text := "           R01006   ".
Definition d6215 : text := " D10004  5 D01042   ".
Definition d6216 : text := "           R01003   ".
Definition d6217 : text := "           D03024   ".
Definition d6218 : text := " D10005  6 D01042   ".
Definition d6219 : text := "           D03033   ".
Definition d6220 : text := " D10006  6 D01042   ".
Definition d6221 : text := " D10007  6 D01042   ".
Definition d6222 : text := " D10008  8 D10011   ".
Definition d6223 : text := "           R01019   ".
Definition d6224 : text := "           D10012   ".
Definition d6225 : text := "           B02150   ".
Definition d6226 : text := "           B25079   ".
Definition d6227 : text := "           B25080   ".
Definition d6228 : text := "           B33032   ".
Definition d6229 : text := "           B14045   ".
Definition d6230 : text := " D10009  3 D10011   ".
Definition d6231 : text := "           R01015   ".
Definition d6232 : text := " D10010  3 D10011   ".
Definition d6233 : text := "           R01005   ".
Definition d6234 : text := " D10011 45 B08070   ".
Definition d6235 : text := "           B08070   ".
Definition d6236 : text := "           B01007   ".
Definition d6237 : text := "           B25075   ".
Definition d6238 : text := "           C01133   ".
Definition d6239 : text := "           B05041   ".
Definition d6240 : text := "           B25070   ".
Definition d6241 : text := "           B33030   ".
Definition d6242 : text := "           B33031   ".
Definition d6243 : text := "           B05001   ".
Definition d6244 : text := "           B07025   ".
Definition d6245 : text := "           B05022   ".
Definition d6246 : text := "           B33033   ".
Definition d6247 : text := "           B02151   ".
Definition d6248 : text := "           B12064   ".
Definition d6249 : text := " D10012 10 B02150   ".
Definition d6250 : text := "           B25076   ".
Definition d6251 : text := "           B25077   ".
Definition d6252 : text := "           B25078   ".
Definition d6253 : text := "           C01132   ".
Definition d6254 : text := " D10013 62 B01007   ".
Definition d6255 : text := "           B25085   ".
Definition d6256 : text := "           B08072   ".
Definition d6257 : text := "           B14027   ".
Definition d6258 : text := " D10014  3 D01072   ".
Definition d6259 : text := "           D03041   ".
Definition d6260 : text := "           D04011   ".
Definition d6261 : text := " D10015 13 D01072   ".
Definition d6262 : text := "           B10002   ".
Definition d6263 : text := "           D04032   ".
Definition d6264 : text := "           B02152   ".
Definition d6265 : text := "           D04033   ".
Definition d6266 : text := " D10016 13 D01072   ".
Definition d6267 : text := "           R01012   ".
Definition d6268 : text := " D10020  6 D10022   ".
Definition d6269 : text := "           D04034   ".
Definition d6270 : text := "           D10021   ".
Definition d6271 : text := " D10021 10 R08000   ".
Definition d6272 : text := "           B15020   ".
Definition d6273 : text := " D10022  4 B01007   ".
Definition d6274 : text := "           B02019   ".
Definition d6275 : text := "           B02172   ".
Definition d6276 : text := " D10023 17 D01072   ".
Definition d6277 : text := "           R05002   ".
Definition d6278 : text := " D10024 17 D01072   ".
Definition d6279 : text := " D10025 61 B01007   ".
Definition d6280 : text := "           C01129   ".
Definition d6281 : text := "           B13040   ".
Definition d6282 : text := "           B20029   ".
Definition d6283 : text := "           R04024   ".
Definition d6284 : text := "           B05042   ".
Definition d6285 : text := "           B12163   ".
Definition d6286 : text := "           B21083   ".
Definition d6287 : text := "           B21084   ".
Definition d6288 : text := "           R15003   ".
Definition d6289 : text := "           C01142   ".
Definition d6290 : text := "           B04026   ".
Definition d6291 : text := "           B12070   ".
Definition d6292 : text := "           B25054   ".
Definition d6293 : text := "           B25055   ".
Definition d6294 : text := "           B08007   ".
Definition d6295 : text := "           R04028   ".
Definition d6296 : text := " D11001  9 D01051   ".
Definition d6297 : text := "           B07002   ".
Definition d6298 : text := "           B11031   ".
Definition d6299 : text := "           B11032   ".
Definition d6300 : text := "           B11033   ".
Definition d6301 : text := "           B20041   ".
Definition d6302 : text := " D11002  4 D01065   ".
Definition d6303 : text := "           D01066   ".
Definition d6304 : text := "           D11003   ".
Definition d6305 : text := "           D11004   ".
Definition d6306 : text := " D11003  5 B10070   ".
Definition d6307 : text := "           B13002   ".
Definition d6308 : text := " D11004 18 R01000   ".
Definition d6309 : text := "           B31000   ".
Definition d6310 : text := "           B11034   ".
Definition d6311 : text := "           B11035   ".
Definition d6312 : text := "           B11075   ".
Definition d6313 : text := "           B11076   ".
Definition d6314 : text := "           B33025   ".
Definition d6315 : text := "           B33026   ".
Definition d6316 : text := " D11005 13 B01008   ".
Definition d6317 : text := "           B01023   ".
Definition d6318 : text := "           B07010   ".
Definition d6319 : text := "           B08009   ".
Definition d6320 : text := "           B11036   ".
Definition d6321 : text := " D11006  6 B07010   ".
Definition d6322 : text := " D12001  2 D01043   ".
Definition d6323 : text := "           D04001   ".
Definition d6324 : text := " D12002  2 D01043   ".
Definition d6325 : text := "           D04002   ".
Definition d6326 : text := " D12003  2 D01042   ".
Definition d6327 : text := "           D04003   ".
Definition d6328 : text := " D12004  2 D01042   ".
Definition d6329 : text := "           D04004   ".
Definition d6330 : text := " D12005  2 D01042   ".
Definition d6331 : text := "           B20014   ".
Definition d6332 : text := " D12006  2 D01044   ".
Definition d6333 : text := "           D04005   ".
Definition d6334 : text := " D12007  2 D01042   ".
Definition d6335 : text := "           D04006   ".
Definition d6336 : text := " D12010  6 B01007   ".
Definition d6337 : text := "           B04043   ".
Definition d6338 : text := " D12011  9 C02131   ".
Definition d6339 : text := "           C01149   ".
Definition d6340 : text := "           B05053   ".
Definition d6341 : text := " D12012  6 C02129   ".
Definition d6342 : text := " D12013  6 B05042   ".
Definition d6343 : text := "           C01135   ".
Definition d6344 : text := " D12014  8 D12010   ".
Definition d6345 : text := "           D12011   ".
Definition d6346 : text := "           R05056   ".
Definition d6347 : text := "           B05052   ".
Definition d6348 : text := "           D12012   ".
Definition d6349 : text := "           D12013   ".
Definition d6350 : text := " D12015 10 R09011   ".
Definition d6351 : text := " D12016  3 D12010   ".
Definition d6352 : text := "           D12015   ".
Definition d6353 : text := " D12017 10 R09008   ".
Definition d6354 : text := " D12018  3 D12010   ".
Definition d6355 : text := "           D12017   ".
Definition d6356 : text := " D12019 13 D01047   ".
Definition d6357 : text := "           D01048   ".
Definition d6358 : text := "           B15015   ".
Definition d6359 : text := "           B29002   ".
Definition d6360 : text := "           B21076   ".
Definition d6361 : text := "           R06012   ".
Definition d6362 : text := "           B06030   ".
Definition d6363 : text := "           R02012   ".
Definition d6364 : text := "           B05030   ".
Definition d6365 : text := "           B21075   ".
Definition d6366 : text := "           B21066   ".
Definition d6367 : text := " D12020 11 D01047   ".
Definition d6368 : text := "           R04012   ".
Definition d6369 : text := " D12021  6 D01047   ".
Definition d6370 : text := "           D01049   ".
Definition d6371 : text := "           B21067   ".
Definition d6372 : text := " D12022 15 D01047   ".
Definition d6373 : text := "           B11050   ".
Definition d6374 : text := "           B22070   ".
Definition d6375 : text := "           B22026   ".
Definition d6376 : text := "           D12041   ".
Definition d6377 : text := "           B10050   ".
Definition d6378 : text := "           B21068   ".
Definition d6379 : text := "           B21071   ".
Definition d6380 : text := "           B21072   ".
Definition d6381 : text := "           B21073   ".
Definition d6382 : text := "           D12042   ".
Definition d6383 : text := " D12023  7 D01047   ".
Definition d6384 : text := "           R03003   ".
Definition d6385 : text := "           B22050   ".
Definition d6386 : text := "           B21069   ".
Definition d6387 : text := "           B21085   ".
Definition d6388 : text := " D12024 11 D12020   ".
Definition d6389 : text := "           B25014   ".
Definition d6390 : text := "           B22101   ".
Definition d6391 : text := "           B22097   ".
Definition d6392 : text := "           B22098   ".
Definition d6393 : text := "           B22099   ".
Definition d6394 : text := "           B22100   ".
Definition d6395 : text := " D12025 11 D12019   ".
Definition d6396 : text := " D12026 19 D01046   ".
Definition d6397 : text := "           D12031   ".
Definition d6398 : text := "           D12030   ".
Definition d6399 : text := "           B21110   ".
Definition d6400 : text := "           D21027   ".
Definition d6401 : text := "           B21111   ".
Definition d6402 : text := "           B21112   ".
Definition d6403 : text := "           B21113   ".
Definition d6404 : text := " D12027  9 D01047   ".
Definition d6405 : text := "           R05009   ".
Definition d6406 : text := "           B21070   ".
Definition d6407 : text := " D12028 26 D01046   ".
Definition d6408 : text := "           B08025   ".
Definition d6409 : text := "           C01136   ".
Definition d6410 : text := "           D12032   ".
Definition d6411 : text := "           D12033   ".
Definition d6412 : text := "           D21028   ".
Definition d6413 : text := " D12030 13 C01130   ".
Definition d6414 : text := "           B11052   ".
Definition d6415 : text := "           C02130   ".
Definition d6416 : text := "           B11053   ".
Definition d6417 : text := "           B21104   ".
Definition d6418 : text := " D12031  8 B05034   ".
Definition d6419 : text := "           B06034   ".
Definition d6420 : text := "           B21109   ".
Definition d6421 : text := "           B11081   ".
Definition d6422 : text := "           B11082   ".
Definition d6423 : text := "           B21101   ".
Definition d6424 : text := "           B21102   ".
Definition d6425 : text := "           B21103   ".
Definition d6426 : text := " D12032  4 B21120   ".
Definition d6427 : text := "           B21121   ".
Definition d6428 : text := "           B21122   ".
Definition d6429 : text := " D12033  4 B02104   ".
Definition d6430 : text := "           B12065   ".
Definition d6431 : text := " D12041  5 C01141   ".
Definition d6432 : text := " D12042  6 B21077   ".
Definition d6433 : text := "           B21078   ".
Definition d6434 : text := "           B21079   ".
Definition d6435 : text := "           B21080   ".
Definition d6436 : text := "           B21081   ".
Definition d6437 : text := "           B21082   ".
Definition d6438 : text := " D13009  4 B21001   ".
Definition d6439 : text := "           B21001   ".
Definition d6440 : text := " D13010  4 B21036   ".
Definition d6441 : text := "           B21036   ".
Definition d6442 : text := " D13031  5 B06002   ".
Definition d6443 : text := "           B06012   ".
Definition d6444 : text := "           B31002   ".
Definition d6445 : text := "           B30001   ".
Definition d6446 : text := " D13032  5 B05002   ".
Definition d6447 : text := "           B05012   ".
Definition d6448 : text := "           D13031   ".
Definition d6449 : text := " D13041 13 B06002   ".
Definition d6450 : text := "           R10000   ".
Definition d6451 : text := "           B31012   ".
Definition d6452 : text := " D13042  5 B05002   ".
Definition d6453 : text := "           D13041   ".
Definition d6454 : text := " D13043 17 B06002   ".
Definition d6455 : text := "           R12000   ".
Definition d6456 : text := "           B31011   ".
Definition d6457 : text := " D13192  3 R01000   ".
Definition d6458 : text := "           B10007   ".
Definition d6459 : text := " D13210  4 B21236   ".
Definition d6460 : text := "           B21236   ".
Definition d6461 : text := " D15001  5 B01011   ".
Definition d6462 : text := "           D06001   ".
Definition d6463 : text := " D15002  5 B01011   ".
Definition d6464 : text := "           D06004   ".
Definition d6465 : text := " D16001 10 D01011   ".
Definition d6466 : text := "           B01021   ".
Definition d6467 : text := "           B02041   ".
Definition d6468 : text := "           B19001   ".
Definition d6469 : text := "           B19002   ".
Definition d6470 : text := "           B19003   ".
Definition d6471 : text := "           B19004   ".
Definition d6472 : text := " D16002 15 B08021   ".
Definition d6473 : text := " D16003 12 R10000   ".
Definition d6474 : text := "           B08011   ".
Definition d6475 : text := " D16004 12 R11000   ".
Definition d6476 : text := " D16005 10 R08000   ".
Definition d6477 : text := "           B08005   ".
Definition d6478 : text := "           B01026   ".
Definition d6479 : text := " D16006 13 R12000   ".
Definition d6480 : text := " D16007 11 R10000   ".
Definition d6481 : text := "           B19005   ".
Definition d6482 : text := "           B19006   ".
Definition d6483 : text := " D16008 12 R11000   ".
Definition d6484 : text := " D16009 13 R11000   ".
Definition d6485 : text := " D16010  9 R07000   ".
Definition d6486 : text := "           B01022   ".
Definition d6487 : text := " D16011 19 R17000   ".
Definition d6488 : text := "           B20090   ".
Definition d6489 : text := " D16022 24 B01032   ".
Definition d6490 : text := "           B19010   ".
Definition d6491 : text := "           R18000   ".
Definition d6492 : text := "           B04014   ".
Definition d6493 : text := "           B04075   ".
Definition d6494 : text := "           B11040   ".
Definition d6495 : text := "           B19008   ".
Definition d6496 : text := "           R02002   ".
Definition d6497 : text := " D18001  2 D01025   ".
Definition d6498 : text := "           B24011   ".
Definition d6499 : text := " D18003  4 D01026   ".
Definition d6500 : text := "           B24005   ".
Definition d6501 : text := "           B24004   ".
Definition d6502 : text := "           B24021   ".
Definition d6503 : text := " D18004  6 D01025   ".
Definition d6504 : text := "           B04023   ".
Definition d6505 : text := "           B24022   ".
Definition d6506 : text := " D21001  6 B02101   ".
Definition d6507 : text := "           B02114   ".
Definition d6508 : text := "           B02105   ".
Definition d6509 : text := "           B02106   ".
Definition d6510 : text := "           B02107   ".
Definition d6511 : text := " D21003  4 B21051   ".
Definition d6512 : text := "           B21014   ".
Definition d6513 : text := "           B21017   ".
Definition d6514 : text := "           B21030   ".
Definition d6515 : text := " D21004  5 D01031   ".
Definition d6516 : text := "           D21003   ".
Definition d6517 : text := " D21005 12 B25004   ".
Definition d6518 : text := "           B02122   ".
Definition d6519 : text := "           B02123   ".
Definition d6520 : text := "           B02124   ".
Definition d6521 : text := "           B02125   ".
Definition d6522 : text := "           B02126   ".
Definition d6523 : text := "           B02127   ".
Definition d6524 : text := "           B02128   ".
Definition d6525 : text := "           B02129   ".
Definition d6526 : text := "           B02130   ".
Definition d6527 : text := "           B02131   ".
Definition d6528 : text := " D21006  4 B25001   ".
Definition d6529 : text := "           B25002   ".
Definition d6530 : text := "           B25003   ".
Definition d6531 : text := "           B25005   ".
Definition d6532 : text := " D21007  8 B25009   ".
Definition d6533 : text := "           B25011   ".
Definition d6534 : text := "           B25012   ".
Definition d6535 : text := "           B25013   ".
Definition d6536 : text := "           B25015   ".
Definition d6537 : text := "           B25016   ".
Definition d6538 : text := "           B25017   ".
Definition d6539 : text := " D21008  3 B25006   ".
Definition d6540 : text := "           B25007   ".
Definition d6541 : text := "           B25008   ".
Definition d6542 : text := " D21009  2 B25018   ".
Definition d6543 : text := "           B25019   ".
Definition d6544 : text := " D21010 13 B02101   ".
Definition d6545 : text := "           B02102   ".
Definition d6546 : text := "           B02103   ".
Definition d6547 : text := "           B02104   ".
Definition d6548 : text := "           B02108   ".
Definition d6549 : text := "           B02109   ".
Definition d6550 : text := "           B02110   ".
Definition d6551 : text := "           B02132   ".
Definition d6552 : text := "           B02133   ".
Definition d6553 : text := " D21011  3 B30031   ".
Definition d6554 : text := "           B30032   ".
Definition d6555 : text := " D21012  3 R01000   ".
Definition d6556 : text := "           B02135   ".
Definition d6557 : text := " D21013  6 R04000   ".
Definition d6558 : text := "           B01001   ".
Definition d6559 : text := "           B31031   ".
Definition d6560 : text := " D21021 15 B02003   ".
Definition d6561 : text := "           B02101   ".
Definition d6562 : text := "           C01130   ".
Definition d6563 : text := "           B25001   ".
Definition d6564 : text := " D21022 11 B07007   ".
Definition d6565 : text := "           C04001   ".
Definition d6566 : text := "           B11006   ".
Definition d6567 : text := " D21023  9 B07007   ".
Definition d6568 : text := "           B21091   ".
Definition d6569 : text := " D21024  7 B07007   ".
Definition d6570 : text := "           B12007   ".
Definition d6571 : text := " D21025 17 B07007   ".
Definition d6572 : text := "           B21092   ".
Definition d6573 : text := "           B25092   ".
Definition d6574 : text := " D21026 10 B07007   ".
Definition d6575 : text := "           B25091   ".
Definition d6576 : text := "           B11071   ".
Definition d6577 : text := "           B11072   ".
Definition d6578 : text := "           B11073   ".
Definition d6579 : text := "           B11074   ".
Definition d6580 : text := " D21027 18 B21118   ".
Definition d6581 : text := "           B21105   ".
Definition d6582 : text := "           B21106   ".
Definition d6583 : text := "           B21107   ".
Definition d6584 : text := "           B21114   ".
Definition d6585 : text := "           B21115   ".
Definition d6586 : text := "           B21116   ".
Definition d6587 : text := "           B08018   ".
Definition d6588 : text := "           B21117   ".
Definition d6589 : text := " D21028 18 B21118   ".
Definition d6590 : text := "           B21123   ".
Definition d6591 : text := " D21192 12 R10000   ".
Definition d6592 : text := "           B05031   ".
Definition d6593 : text := "           R07000   ".
Definition d6594 : text := " D21193 12 R10000   ".
Definition d6595 : text := "           B30002   ".
Definition d6596 : text := " D21194 12 R10000   ".
Definition d6597 : text := " D21195 12 R10000   ".
Definition d6598 : text := " D21196 12 R10000   ".
Definition d6599 : text := " D21197 12 R10000   ".
Definition d6600 : text := " D21198  5 R03000   ".
Definition d6601 : text := " D21250  6 R04000   ".
Definition d6602 : text := " D00002  2 B00002                                                                                                       ".
Definition d6603 : text := "           B00003                                                                                                       ".
Definition d6604 : text := " D00003  3 B00010                                                                                                       ".
Definition d6605 : text := "           B00011                                                                                                       ".
Definition d6606 : text := "           B00012                                                                                                       ".
Definition d6607 : text := " D00004  9 D00003                                                                                                       ".
Definition d6608 : text := "           B00013                                                                                                       ".
Definition d6609 : text := "           B00014                                                                                                       ".
Definition d6610 : text := "           B00015                                                                                                       ".
Definition d6611 : text := "           B00016                                                                                                       ".
Definition d6612 : text := "           B00017                                                                                                       ".
Definition d6613 : text := "           B00018                                                                                                       ".
Definition d6614 : text := "           B00019                                                                                                       ".
Definition d6615 : text := "           B00020                                                                                                       ".
Definition d6616 : text := " D00010  3 D00003                                                                                                       ".
Definition d6617 : text := "           R01000                                                                                                       ".
Definition d6618 : text := "           B00030                                                                                                       ".
Definition d6619 : text := " D01001  2 B01001                                                                                                       ".
Definition d6620 : text := "           B01002                                                                                                       ".
Definition d6621 : text := " D01002  3 B01003                                                                                                       ".
Definition d6622 : text := "           B01004                                                                                                       ".
Definition d6623 : text := "           B01005                                                                                                       ".
Definition d6624 : text := " D01003  3 B01011                                                                                                       ".
Definition d6625 : text := "           B01012                                                                                                       ".
Definition d6626 : text := "           B01013                                                                                                       ".
Definition d6627 : text := " D01004  4 B01001                                                                                                       ".
Definition d6628 : text := "           B01015                                                                                                       ".
Definition d6629 : text := "           B02001                                                                                                       ".
Definition d6630 : text := " D01011  3 B04001                                                                                                       ".
Definition d6631 : text := "           B04002                                                                                                       ".
Definition d6632 : text := "           B04003                                                                                                       ".
Definition d6633 : text := " D01012  2 B04004                                                                                                       ".
Definition d6634 : text := "           B04005                                                                                                       ".
Definition d6635 : text := " D01013  3 B04004                                                                                                       ".
Definition d6636 : text := "           B04006                                                                                                       ".
Definition d6637 : text := " D01021  2 B05001                                                                                                       ".
Definition d6638 : text := "           B06001                                                                                                       ".
Definition d6639 : text := " D01022  3 B05001                                                                                                       ".
Definition d6640 : text := "           B07001                                                                                                       ".
Definition d6641 : text := " D01023  2 B05002                                                                                                       ".
Definition d6642 : text := "           B06002                                                                                                       ".
Definition d6643 : text := " D01024  3 B05002                                                                                                       ".
Definition d6644 : text := " D01025  3 D01023                                                                                                       ".
Definition d6645 : text := "           D01012                                                                                                       ".
Definition d6646 : text := " D01026  7 D01021                                                                                                       ".
Definition d6647 : text := "           B04004                                                                                                       ".
Definition d6648 : text := " D01029  3 B01018".
Definition d6649 : text := "           B02001".
Definition d6650 : text := "           D01011".
Definition d6651 : text := " D01030  4 B01018".
Definition d6652 : text := "           D01024".
Definition d6653 : text := " D01031  5 D01001                                                                                                       ".
Definition d6654 : text := "           D01011                                                                                                       ".
Definition d6655 : text := "           D01022                                                                                                       ".
Definition d6656 : text := " D01032  5 D01001                                                                                                       ".
Definition d6657 : text := "           D01024                                                                                                       ".
Definition d6658 : text := " D01033  5 B01005                                                                                                       ".
Definition d6659 : text := "           D01021                                                                                                       ".
Definition d6660 : text := " D01034  5 B01005                                                                                                       ".
Definition d6661 : text := "           D01023                                                                                                       ".
Definition d6662 : text := " D01035  7 B01005                                                                                                       ".
Definition d6663 : text := " D01036  5 D01003                                                                                                       ".
Definition d6664 : text := " D01037  6 D01001                                                                                                       ".
Definition d6665 : text := "           B02011                                                                                                       ".
Definition d6666 : text := "           B02012                                                                                                       ".
Definition d6667 : text := " D01038  6 D01001                                                                                                       ".
Definition d6668 : text := " D01039  6 D01003                                                                                                       ".
Definition d6669 : text := " D01040  6 D01003                                                                                                       ".
Definition d6670 : text := " D01041  5 B01007                                                                                                       ".
Definition d6671 : text := "           B02021                                                                                                       ".
Definition d6672 : text := "           B02022                                                                                                       ".
Definition d6673 : text := " D01042  2 D01041                                                                                                       ".
Definition d6674 : text := " D01043  5 B01007                                                                                                       ".
Definition d6675 : text := "           B02023                                                                                                       ".
Definition d6676 : text := "           D01013                                                                                                       ".
Definition d6677 : text := " D01044  5 B01007                                                                                                       ".
Definition d6678 : text := "           B02024                                                                                                       ".
Definition d6679 : text := " D01049  5 B02111                                                                                                       ".
Definition d6680 : text := "           B02112                                                                                                       ".
Definition d6681 : text := "           B21062                                                                                                       ".
Definition d6682 : text := "           B21063                                                                                                       ".
Definition d6683 : text := "           B21065                                                                                                       ".
Definition d6684 : text := " D01051  6 B01006                                                                                                       ".
Definition d6685 : text := "           B02061                                                                                                       ".
Definition d6686 : text := "           B08004                                                                                                       ".
Definition d6687 : text := " D01055  7 B01005                                                                                                       ".
Definition d6688 : text := "           B01014                                                                                                       ".
Definition d6689 : text := " D01062  2 R01000                                                                                                       ".
Definition d6690 : text := "           D01001                                                                                                       ".
Definition d6691 : text := " D01065  8 B01006                                                                                                       ".
Definition d6692 : text := "           B01008                                                                                                       ".
Definition d6693 : text := "           B02002                                                                                                       ".
Definition d6694 : text := "           B02005                                                                                                       ".
Definition d6695 : text := "           B02062                                                                                                       ".
Definition d6696 : text := "           B02070                                                                                                       ".
Definition d6697 : text := "           B02065                                                                                                       ".
Definition d6698 : text := " D01066  6 D01011                                                                                                       ".
Definition d6699 : text := "           B07004                                                                                                       ".
Definition d6700 : text := "           B02064                                                                                                       ".
Definition d6701 : text := " D01070  3 B02143".
Definition d6702 : text := "           B02142".
Definition d6703 : text := "           B02144".
Definition d6704 : text := " D01071  5 B01007                                                                                                       ".
Definition d6705 : text := "           B01031                                                                                                       ".
Definition d6706 : text := "           B02020                                                                                                       ".
Definition d6707 : text := "           B02028                                                                                                       ".
Definition d6708 : text := "           B02029                                                                                                       ".
Definition d6709 : text := " D01072  4 D01071                                                                                                       ".
Definition d6710 : text := " D01074  4 B02143".
Definition d6711 : text := "           B02145".
Definition d6712 : text := "           B02146".
Definition d6713 : text := " D01075  6 D01001".
Definition d6714 : text := "           B01015".
Definition d6715 : text := "           B08021".
Definition d6716 : text := "           D01012".
Definition d6717 : text := " D01076  3 B02011".
Definition d6718 : text := "           B02143".
Definition d6719 : text := " D01090  6 D01004                                                                                                       ".
Definition d6720 : text := "           B07030                                                                                                       ".
Definition d6721 : text := "           B07031                                                                                                       ".
Definition d6722 : text := " D01091 10 B02180                                                                                                       ".
Definition d6723 : text := "           B02181                                                                                                       ".
Definition d6724 : text := "           B02182                                                                                                       ".
Definition d6725 : text := "           B02183                                                                                                       ".
Definition d6726 : text := "           B02184                                                                                                       ".
Definition d6727 : text := "           B02179                                                                                                       ".
Definition d6728 : text := "           B02186                                                                                                       ".
Definition d6729 : text := "           B02187                                                                                                       ".
Definition d6730 : text := "           B02188                                                                                                       ".
Definition d6731 : text := "           B02189                                                                                                       ".
Definition d6732 : text := " D01193  5 001007".
Definition d6733 : text := " D01250  4 D01193".
Definition d6734 : text := "           D01013".
Definition d6735 : text := "           D01021".
Definition d6736 : text := " D02001  4 B10004                                                                                                       ".
Definition d6737 : text := "           B10051                                                                                                       ".
Definition d6738 : text := "           B10061                                                                                                       ".
Definition d6739 : text := "           B10063                                                                                                       ".
Definition d6740 : text := " D02002  5 B10004                                                                                                       ".
Definition d6741 : text := "           B10003                                                                                                       ".
Definition d6742 : text := " D02003  9 B11011                                                                                                       ".
Definition d6743 : text := "           B11012                                                                                                       ".
Definition d6744 : text := "           B12004                                                                                                       ".
Definition d6745 : text := "           B12006                                                                                                       ".
Definition d6746 : text := "           B13003                                                                                                       ".
Definition d6747 : text := "           B20001                                                                                                       ".
Definition d6748 : text := "           B20003                                                                                                       ".
Definition d6749 : text := "           B20004                                                                                                       ".
Definition d6750 : text := "           B20005                                                                                                       ".
Definition d6751 : text := " D02004  7 B20010                                                                                                       ".
Definition d6752 : text := "           B08002                                                                                                       ".
Definition d6753 : text := "           B20011                                                                                                       ".
Definition d6754 : text := "           B20013                                                                                                       ".
Definition d6755 : text := "           B20012                                                                                                       ".
Definition d6756 : text := " D02005  4 B08002                                                                                                       ".
Definition d6757 : text := " D02006  4 B10004                                                                                                       ".
Definition d6758 : text := "           B10062                                                                                                       ".
Definition d6759 : text := " D02011  3 D02001                                                                                                       ".
Definition d6760 : text := "           D02003                                                                                                       ".
Definition d6761 : text := "           D02004                                                                                                       ".
Definition d6762 : text := " D02012  3 D02002                                                                                                       ".
Definition d6763 : text := " D02013  4 D02006                                                                                                       ".
Definition d6764 : text := "           D02005                                                                                                       ".
Definition d6765 : text := " D02021  3 B22001                                                                                                       ".
Definition d6766 : text := "           B22011                                                                                                       ".
Definition d6767 : text := "           B22021                                                                                                       ".
Definition d6768 : text := " D02022  3 B22002                                                                                                       ".
Definition d6769 : text := "           B22012                                                                                                       ".
Definition d6770 : text := "           B22022                                                                                                       ".
Definition d6771 : text := " D02023  3 B22003                                                                                                       ".
Definition d6772 : text := "           B22013                                                                                                       ".
Definition d6773 : text := "           B22023                                                                                                       ".
Definition d6774 : text := " D02024  3 D02022                                                                                                       ".
Definition d6775 : text := "           R01002                                                                                                       ".
Definition d6776 : text := "           D02023                                                                                                       ".
Definition d6777 : text := " D02051 12 B10004                                                                                                       ".
Definition d6778 : text := "           B12051                                                                                                       ".
Definition d6779 : text := "           B12016                                                                                                       ".
Definition d6780 : text := "           B12017                                                                                                       ".
Definition d6781 : text := "           B13004                                                                                                       ".
Definition d6782 : text := "           R02004                                                                                                       ".
Definition d6783 : text := "           B08051                                                                                                       ".
Definition d6784 : text := "           B08020                                                                                                       ".
Definition d6785 : text := " D02069  4 B07032                                                                                                       ".
Definition d6786 : text := "           B07033                                                                                                       ".
Definition d6787 : text := "           B33041                                                                                                       ".
Definition d6788 : text := " D02070  8 B07032                                                                                                       ".
Definition d6789 : text := "           B11001                                                                                                       ".
Definition d6790 : text := "           B11002                                                                                                       ".
Definition d6791 : text := "           B11043                                                                                                       ".
Definition d6792 : text := "           B11041                                                                                                       ".
Definition d6793 : text := "           B11016                                                                                                       ".
Definition d6794 : text := "           B11017                                                                                                       ".
Definition d6795 : text := " D02071 14 B07032                                                                                                       ".
Definition d6796 : text := "           B08021                                                                                                       ".
Definition d6797 : text := "           B04025                                                                                                       ".
Definition d6798 : text := "           R03002                                                                                                       ".
Definition d6799 : text := " D02072  5 B07032                                                                                                       ".
Definition d6800 : text := "           B12101                                                                                                       ".
Definition d6801 : text := "           B12103                                                                                                       ".
Definition d6802 : text := " D02073  7 B20010                                                                                                       ".
Definition d6803 : text := "           R05004                                                                                                       ".
Definition d6804 : text := " D02074  4 B20003                                                                                                       ".
Definition d6805 : text := " D02075  5 B08021                                                                                                       ".
Definition d6806 : text := "           B13055                                                                                                       ".
Definition d6807 : text := "           B13058                                                                                                       ".
Definition d6808 : text := " D02076  7 B02021                                                                                                       ".
Definition d6809 : text := "           B20022                                                                                                       ".
Definition d6810 : text := "           B26020                                                                                                       ".
Definition d6811 : text := "           B20023                                                                                                       ".
Definition d6812 : text := "           B20024                                                                                                       ".
Definition d6813 : text := "           B20025                                                                                                       ".
Definition d6814 : text := "           B20026                                                                                                       ".
Definition d6815 : text := " D02077 12 B07032                                                                                                       ".
Definition d6816 : text := "           B12111                                                                                                       ".
Definition d6817 : text := "           B12112                                                                                                       ".
Definition d6818 : text := "           B07032                                                                                                       ".
Definition d6819 : text := "           B02176                                                                                                       ".
Definition d6820 : text := "           B20062                                                                                                       ".
Definition d6821 : text := "           B02177                                                                                                       ".
Definition d6822 : text := "           B13013                                                                                                       ".
Definition d6823 : text := " D02078  4 B02176                                                                                                       ".
Definition d6824 : text := " D02079  5 B07032                                                                                                       ".
Definition d6825 : text := "           B02175                                                                                                       ".
Definition d6826 : text := "           B02178                                                                                                       ".
Definition d6827 : text := "           B13011                                                                                                       ".
Definition d6828 : text := " D02080  3 B02185                                                                                                       ".
Definition d6829 : text := "           B13033                                                                                                       ".
Definition d6830 : text := " D02081  2 B04025                                                                                                       ".
Definition d6831 : text := "           B14031                                                                                                       ".
Definition d6832 : text := " D02082  7 B04025                                                                                                       ".
Definition d6833 : text := "           B14002                                                                                                       ".
Definition d6834 : text := "           B14004                                                                                                       ".
Definition d6835 : text := "           B14016                                                                                                       ".
Definition d6836 : text := "           B14028                                                                                                       ".
Definition d6837 : text := "           B14029                                                                                                       ".
Definition d6838 : text := "           B14030                                                                                                       ".
Definition d6839 : text := " D02083  8 B04025                                                                                                       ".
Definition d6840 : text := "           B08023                                                                                                       ".
Definition d6841 : text := "           B10004                                                                                                       ".
Definition d6842 : text := " D03001  3 B07003                                                                                                       ".
Definition d6843 : text := " D03002  3 B07004                                                                                                       ".
Definition d6844 : text := " D03003  4 B07004                                                                                                       ".
Definition d6845 : text := "           B12001                                                                                                       ".
Definition d6846 : text := "           B12003                                                                                                       ".
Definition d6847 : text := " D03004  6 B07004                                                                                                       ".
Definition d6848 : text := " D03011  4 B07003                                                                                                       ".
Definition d6849 : text := "           B08001                                                                                                       ".
Definition d6850 : text := " D03012  4 B07004                                                                                                       ".
Definition d6851 : text := " D03013  7 B07004                                                                                                       ".
Definition d6852 : text := " D03014  7 B07004                                                                                                       ".
Definition d6853 : text := " D03031  6 B07004                                                                                                       ".
Definition d6854 : text := "           B08003                                                                                                       ".
Definition d6855 : text := "           B07021                                                                                                       ".
Definition d6856 : text := "           B07022                                                                                                       ".
Definition d6857 : text := "           B08012                                                                                                       ".
Definition d6858 : text := "           B12061                                                                                                       ".
Definition d6859 : text := " D03032  2 B20011                                                                                                       ".
Definition d6860 : text := "           B20016                                                                                                       ".
Definition d6861 : text := " D03033  2 B20010                                                                                                       ".
Definition d6862 : text := " D03041  8 B02152                                                                                                       ".
Definition d6863 : text := "           B02153                                                                                                       ".
Definition d6864 : text := "           B02154                                                                                                       ".
Definition d6865 : text := "           B12071                                                                                                       ".
Definition d6866 : text := " D03250  8 B02252".
Definition d6867 : text := "           B02023".
Definition d6868 : text := "           B07004".
Definition d6869 : text := "           B11001".
Definition d6870 : text := "           B11002".
Definition d6871 : text := "           B02197".
Definition d6872 : text := "           B02198".
Definition d6873 : text := "           B12193".
Definition d6874 : text := " D04001  5 B08003                                                                                                       ".
Definition d6875 : text := " D04002  4 B08003                                                                                                       ".
Definition d6876 : text := " D04003  2 B08003                                                                                                       ".
Definition d6877 : text := " D04004  4 B08003                                                                                                       ".
Definition d6878 : text := "           B20010                                                                                                       ".
Definition d6879 : text := " D04005  4 B02024                                                                                                       ".
Definition d6880 : text := " D04006  3 B14001                                                                                                       ".
Definition d6881 : text := "           B14001                                                                                                       ".
Definition d6882 : text := "           B14003                                                                                                       ".
Definition d6883 : text := " D04011 27 B02163                                                                                                       ".
Definition d6884 : text := "           B02164                                                                                                       ".
Definition d6885 : text := "           B07024                                                                                                       ".
Definition d6886 : text := "           B02057                                                                                                       ".
Definition d6887 : text := "           B04001                                                                                                       ".
Definition d6888 : text := "           B04024                                                                                                       ".
Definition d6889 : text := "           R10004                                                                                                       ".
Definition d6890 : text := "           R03010                                                                                                       ".
Definition d6891 : text := "           B02163                                                                                                       ".
Definition d6892 : text := " D04030  3 B27031                                                                                                       ".
Definition d6893 : text := "           B28031                                                                                                       ".
Definition d6894 : text := "           B10031                                                                                                       ".
Definition d6895 : text := " D04031  3 B01041                                                                                                       ".
Definition d6896 : text := "           B01042                                                                                                       ".
Definition d6897 : text := "           B01043                                                                                                       ".
Definition d6898 : text := " D04032  5 B02153                                                                                                       ".
Definition d6899 : text := "           B20081                                                                                                       ".
Definition d6900 : text := "           B20082                                                                                                       ".
Definition d6901 : text := " D04033  8 B02152                                                                                                       ".
Definition d6902 : text := "           B02166                                                                                                       ".
Definition d6903 : text := "           B02167                                                                                                       ".
Definition d6904 : text := "           B12075                                                                                                       ".
Definition d6905 : text := "           B12076                                                                                                       ".
Definition d6906 : text := "           B12063                                                                                                       ".
Definition d6907 : text := " D04034  9 R02004                                                                                                       ".
Definition d6908 : text := "           B27001                                                                                                       ".
Definition d6909 : text := "           B28001                                                                                                       ".
Definition d6910 : text := "           B05043                                                                                                       ".
Definition d6911 : text := "           B33003                                                                                                       ".
Definition d6912 : text := "           B10040                                                                                                       ".
Definition d6913 : text := " D04250 27 B02231".
Definition d6914 : text := "           B02232".
Definition d6915 : text := "           B08012".
Definition d6916 : text := "           B07024".
Definition d6917 : text := "           B02057".
Definition d6918 : text := "           B04001".
Definition d6919 : text := "           B04002".
Definition d6920 : text := "           B04003".
Definition d6921 : text := "           B04004".
Definition d6922 : text := "           B04024".
Definition d6923 : text := "           R10004".
Definition d6924 : text := "           B04005".
Definition d6925 : text := "           B04006".
Definition d6926 : text := "           R03010".
Definition d6927 : text := "           B02231".
Definition d6928 : text := "           B12001".
Definition d6929 : text := " D05001  4 B11001".
Definition d6930 : text := "           B13060".
Definition d6931 : text := "           B13071".
Definition d6932 : text := " D05002 11 D01012".
Definition d6933 : text := "           B13003".
Definition d6934 : text := "           B14051".
Definition d6935 : text := "           B13072".
Definition d6936 : text := "           B13080".
Definition d6937 : text := "           B13081".
Definition d6938 : text := "           B13082".
Definition d6939 : text := "           B13083".
Definition d6940 : text := "           B13084".
Definition d6941 : text := " D05003  4 D01012                                                                                                       ".
Definition d6942 : text := "           B04065                                                                                                       ".
Definition d6943 : text := "           D05001                                                                                                       ".
Definition d6944 : text := " D05004  3 D01030".
Definition d6945 : text := "           D05002".
Definition d6946 : text := "           D05003".
Definition d6947 : text := " D05006  8 B13072                                                                                                       ".
Definition d6948 : text := "           B13082                                                                                                       ".
Definition d6949 : text := "           B13019                                                                                                       ".
Definition d6950 : text := "           C07005".
Definition d6951 : text := "           C01004".
Definition d6952 : text := "           B13073                                                                                                       ".
Definition d6953 : text := "           B13060                                                                                                       ".
Definition d6954 : text := " D05007  5 D01029                                                                                                       ".
Definition d6955 : text := "           D05006                                                                                                       ".
Definition d6956 : text := " D05008  4 D05006                                                                                                       ".
Definition d6957 : text := "           B12030                                                                                                       ".
Definition d6958 : text := " D05009  5 D01029                                                                                                       ".
Definition d6959 : text := "           D05008                                                                                                       ".
Definition d6960 : text := " D05010  3 D05008".
Definition d6961 : text := "           B02091".
Definition d6962 : text := " D05011  5 D01029                                                                                                       ".
Definition d6963 : text := "           D05010                                                                                                       ".
Definition d6964 : text := " D05016  7 B14021".
Definition d6965 : text := "           B11041".
Definition d6966 : text := "           B11043".
Definition d6967 : text := " D05017  5 B13080".
Definition d6968 : text := "           B13085".
Definition d6969 : text := " D05018  7 D01029                                                                                                       ".
Definition d6970 : text := "           R03000                                                                                                       ".
Definition d6971 : text := "           D05016                                                                                                       ".
Definition d6972 : text := "           D05017                                                                                                       ".
Definition d6973 : text := " D06001  4 B02032                                                                                                       ".
Definition d6974 : text := "           R02000                                                                                                       ".
Definition d6975 : text := "           B07062                                                                                                       ".
Definition d6976 : text := "           B22042                                                                                                       ".
Definition d6977 : text := " D06002  3 B02031                                                                                                       ".
Definition d6978 : text := "           B22004                                                                                                       ".
Definition d6979 : text := "           B22031                                                                                                       ".
Definition d6980 : text := " D06003  4 B02002                                                                                                       ".
Definition d6981 : text := "           B11011                                                                                                       ".
Definition d6982 : text := " D06004  6 B02032                                                                                                       ".
Definition d6983 : text := "           B02033                                                                                                       ".
Definition d6984 : text := "           B22043                                                                                                       ".
Definition d6985 : text := "           B22062                                                                                                       ".
Definition d6986 : text := " D06005  5 B02031                                                                                                       ".
Definition d6987 : text := " D06006  3 D06003                                                                                                       ".
Definition d6988 : text := "           D06002                                                                                                       ".
Definition d6989 : text := "           B22063                                                                                                       ".
Definition d6990 : text := " D06007  6 B01012                                                                                                       ".
Definition d6991 : text := "           D06008                                                                                                       ".
Definition d6992 : text := "           B27003                                                                                                       ".
Definition d6993 : text := "           B28003                                                                                                       ".
Definition d6994 : text := " D06008  3 B02034                                                                                                       ".
Definition d6995 : text := "           B02035                                                                                                       ".
Definition d6996 : text := "           B02036                                                                                                       ".
Definition d6997 : text := " D06020  8 B01075".
Definition d6998 : text := "           B22042".
Definition d6999 : text := "           B22120".
Definition d7000 : text := "           B22121".
Definition d7001 : text := "           B04075".
Definition d7002 : text := "           B04065".
Definition d7003 : text := " D06021  7 B01075                                                                                                       ".
Definition d7004 : text := "           B22122                                                                                                       ".
Definition d7005 : text := "           B22123                                                                                                       ".
Definition d7006 : text := "           D03002                                                                                                       ".
Definition d7007 : text := " D06022  5 B01075                                                                                                       ".
Definition d7008 : text := "           B22038                                                                                                       ".
Definition d7009 : text := "           B22039                                                                                                       ".
Definition d7010 : text := " D06023  8 B01015                                                                                                       ".
Definition d7011 : text := "           B22120                                                                                                       ".
Definition d7012 : text := "           B22121                                                                                                       ".
Definition d7013 : text := " D06024  4 D06020".
Definition d7014 : text := "           R02000".
Definition d7015 : text := "           B22038".
Definition d7016 : text := "           B22039".
Definition d7017 : text := " D07001  2 D01031                                                                                                       ".
Definition d7018 : text := "           D02011                                                                                                       ".
Definition d7019 : text := " D07002  2 D01032                                                                                                       ".
Definition d7020 : text := " D07003  3 D07001                                                                                                       ".
Definition d7021 : text := " D07004  3 D07002                                                                                                       ".
Definition d7022 : text := " D07005  3 D07001                                                                                                       ".
Definition d7023 : text := "           R01004                                                                                                       ".
Definition d7024 : text := " D07006  3 D07002                                                                                                       ".
Definition d7025 : text := " D07007  2 D01031                                                                                                       ".
Definition d7026 : text := "           D02012                                                                                                       ".
Definition d7027 : text := " D07008  2 D01032                                                                                                       ".
Definition d7028 : text := " D07009  2 D01031                                                                                                       ".
Definition d7029 : text := "           D02013                                                                                                       ".
Definition d7030 : text := " D07011 16 B01063                                                                                                       ".
Definition d7031 : text := "           B07006                                                                                                       ".
Definition d7032 : text := "           B10052                                                                                                       ".
Definition d7033 : text := "           B20009                                                                                                       ".
Definition d7034 : text := " D07012  4 R03000                                                                                                       ".
Definition d7035 : text := "           B05021                                                                                                       ".
Definition d7036 : text := " D07013  7 R06000                                                                                                       ".
Definition d7037 : text := "           B01064                                                                                                       ".
Definition d7038 : text := "           B08014                                                                                                       ".
Definition d7039 : text := "           B20061                                                                                                       ".
Definition d7040 : text := "           B20018                                                                                                       ".
Definition d7041 : text := " D07014  2 R01000                                                                                                       ".
Definition d7042 : text := "           B20019                                                                                                       ".
Definition d7043 : text := " D07015  3 R01000                                                                                                       ".
Definition d7044 : text := "           B20002                                                                                                       ".
Definition d7045 : text := " D07016  2 R01000                                                                                                       ".
Definition d7046 : text := "           B20020                                                                                                       ".
Definition d7047 : text := " D07017  2 R01000                                                                                                       ".
Definition d7048 : text := "           B11070                                                                                                       ".
Definition d7049 : text := " D07018 13 B08016                                                                                                       ".
Definition d7050 : text := "           B08017                                                                                                       ".
Definition d7051 : text := "           R04000                                                                                                       ".
Definition d7052 : text := "           D07014                                                                                                       ".
Definition d7053 : text := " D07020  3 D07011                                                                                                       ".
Definition d7054 : text := "           D07016                                                                                                       ".
Definition d7055 : text := " D07021  9 D07011                                                                                                       ".
Definition d7056 : text := "           D07012                                                                                                       ".
Definition d7057 : text := "           D07013                                                                                                       ".
Definition d7058 : text := "           D07015                                                                                                       ".
Definition d7059 : text := "           D07017                                                                                                       ".
Definition d7060 : text := "           D07018                                                                                                       ".
Definition d7061 : text := " D07030  2 B15001                                                                                                       ".
Definition d7062 : text := "           B15002                                                                                                       ".
Definition d7063 : text := " D07031  7 B08022                                                                                                       ".
Definition d7064 : text := "           B15001                                                                                                       ".
Definition d7065 : text := " D07041  7 D01001                                                                                                       ".
Definition d7066 : text := "           D01070                                                                                                       ".
Definition d7067 : text := "           D07030                                                                                                       ".
Definition d7068 : text := " D07042  9 D01001                                                                                                       ".
Definition d7069 : text := "           D07031                                                                                                       ".
Definition d7070 : text := " D07043  7 D01001                                                                                                       ".
Definition d7071 : text := "           D01074                                                                                                       ".
Definition d7072 : text := " D07044  9 D01001".
Definition d7073 : text := "           B04025".
Definition d7074 : text := "           D01074".
Definition d7075 : text := "           D07031".
Definition d7076 : text := " D07060  2 B07061".
Definition d7077 : text := "           B12030".
Definition d7078 : text := " D07061  3 D01031".
Definition d7079 : text := "           R01005".
Definition d7080 : text := "           D07060".
Definition d7081 : text := " D07062  3 D01032".
Definition d7082 : text := " D07063  2 B07061".
Definition d7083 : text := "           B12130".
Definition d7084 : text := " D08001  3 D01033                                                                                                       ".
Definition d7085 : text := " D08002  3 D01034                                                                                                       ".
Definition d7086 : text := " D08003  3 D01035                                                                                                       ".
Definition d7087 : text := " D08004  3 D01036                                                                                                       ".
Definition d7088 : text := " D08005  2 D08004                                                                                                       ".
Definition d7089 : text := "           D02024                                                                                                       ".
Definition d7090 : text := " D08006  8 B10004                                                                                                       ".
Definition d7091 : text := " D08007  4 D01055                                                                                                       ".
Definition d7092 : text := " D09001  3 D01037                                                                                                       ".
Definition d7093 : text := "           D03011                                                                                                       ".
Definition d7094 : text := " D09002  3 D01038                                                                                                       ".
Definition d7095 : text := " D09003  3 D01037                                                                                                       ".
Definition d7096 : text := "           D03012                                                                                                       ".
Definition d7097 : text := " D09004  3 D01038                                                                                                       ".
Definition d7098 : text := " D09005  4 D01037                                                                                                       ".
Definition d7099 : text := "           D03013                                                                                                       ".
Definition d7100 : text := " D09006  4 D01038                                                                                                       ".
Definition d7101 : text := " D09007  4 D01037                                                                                                       ".
Definition d7102 : text := "           D03014                                                                                                       ".
Definition d7103 : text := " D09008  4 D01038                                                                                                       ".
Definition d7104 : text := " D09011  3 D01039                                                                                                       ".
Definition d7105 : text := " D09012  3 D01039                                                                                                       ".
Definition d7106 : text := " D09013  4 D01039                                                                                                       ".
Definition d7107 : text := " D09014  4 D01039                                                                                                       ".
Definition d7108 : text := " D09015  3 D01040                                                                                                       ".
Definition d7109 : text := " D09016  3 D01040                                                                                                       ".
Definition d7110 : text := " D09017  4 D01040                                                                                                       ".
Definition d7111 : text := " D09018  4 D01040                                                                                                       ".
Definition d7112 : text := " D09019  4 D01031                                                                                                       ".
Definition d7113 : text := "           B02003                                                                                                       ".
Definition d7114 : text := " D09020  7 D01031                                                                                                       ".
Definition d7115 : text := "           B07003                                                                                                       ".
Definition d7116 : text := "           B11003                                                                                                       ".
Definition d7117 : text := "           B11004                                                                                                       ".
Definition d7118 : text := "           B11005                                                                                                       ".
Definition d7119 : text := " D09030  7 B15004                                                                                                       ".
Definition d7120 : text := "           B15005                                                                                                       ".
Definition d7121 : text := "           B04015                                                                                                       ".
Definition d7122 : text := "           B08006                                                                                                       ".
Definition d7123 : text := "           B15003                                                                                                       ".
Definition d7124 : text := " D09040  3 D01075                                                                                                       ".
Definition d7125 : text := "           D01076                                                                                                       ".
Definition d7126 : text := "           D09030                                                                                                       ".
Definition d7127 : text := " D09041  4 D07041".
Definition d7128 : text := "           D01075".
Definition d7129 : text := "           D01076".
Definition d7130 : text := "           D09030".
Definition d7131 : text := " D09042  4 D07042                                                                                                       ".
Definition d7132 : text := "           D01075                                                                                                       ".
Definition d7133 : text := " D09044  4 D07044".
Definition d7134 : text := " D10001  5 D01042                                                                                                       ".
Definition d7135 : text := "           D03031                                                                                                       ".
Definition d7136 : text := "           D03032                                                                                                       ".
Definition d7137 : text := "           R01026                                                                                                       ".
Definition d7138 : text := "           D03025                                                                                                       ".
Definition d7139 : text := " D10002  5 D01042                                                                                                       ".
Definition d7140 : text := "           R01009                                                                                                       ".
Definition d7141 : text := "           D03023                                                                                                       ".
Definition d7142 : text := " D10003  5 D01042                                                                                                       ".
Definition d7143 : text := "           R01006                                                                                                       ".
Definition d7144 : text := " D10004  5 D01042                                                                                                       ".
Definition d7145 : text := "           R01003                                                                                                       ".
Definition d7146 : text := "           D03024                                                                                                       ".
Definition d7147 : text := " D10005  5 D01042                                                                                                       ".
Definition d7148 : text := "           D03033                                                                                                       ".
Definition d7149 : text := " D10006  5 D01042                                                                                                       ".
Definition d7150 : text := " D10007  5 D01042                                                                                                       ".
Definition d7151 : text := " D10008  8 D10011                                                                                                       ".
Definition d7152 : text := "           R01019                                                                                                       ".
Definition d7153 : text := "           D10012                                                                                                       ".
Definition d7154 : text := "           B02150                                                                                                       ".
Definition d7155 : text := "           B25079                                                                                                       ".
Definition d7156 : text := "           B25080                                                                                                       ".
Definition d7157 : text := "           B33032                                                                                                       ".
Definition d7158 : text := "           B14045                                                                                                       ".
Definition d7159 : text := " D10009  3 D10011                                                                                                       ".
Definition d7160 : text := "           R01015                                                                                                       ".
Definition d7161 : text := " D10010  3 D10011                                                                                                       ".
Definition d7162 : text := "           R01005                                                                                                       ".
Definition d7163 : text := " D10014  3 D01072                                                                                                       ".
Definition d7164 : text := "           D03041                                                                                                       ".
Definition d7165 : text := "           D04011                                                                                                       ".
Definition d7166 : text := " D10015 13 D01072                                                                                                       ".
Definition d7167 : text := "           B10002                                                                                                       ".
Definition d7168 : text := "           D04032                                                                                                       ".
Definition d7169 : text := "           B02152                                                                                                       ".
Definition d7170 : text := "           D04033                                                                                                       ".
Definition d7171 : text := " D10016 13 D01072                                                                                                       ".
Definition d7172 : text := "           R01012                                                                                                       ".
Definition d7173 : text := " D10020  6 D10022                                                                                                       ".
Definition d7174 : text := "           D04034                                                                                                       ".
Definition d7175 : text := "           D10021                                                                                                       ".
Definition d7176 : text := " D10022  4 B01007                                                                                                       ".
Definition d7177 : text := "           B02019                                                                                                       ".
Definition d7178 : text := "           B01033                                                                                                       ".
Definition d7179 : text := "           B02172                                                                                                       ".
Definition d7180 : text := " D10023 17 D01072                                                                                                       ".
Definition d7181 : text := "           B30021                                                                                                       ".
Definition d7182 : text := "           B30022                                                                                                       ".
Definition d7183 : text := "           B07025                                                                                                       ".
Definition d7184 : text := "           R05002                                                                                                       ".
Definition d7185 : text := " D10050 13 D10051                                                                                                       ".
Definition d7186 : text := "           D10052                                                                                                       ".
Definition d7187 : text := "           D10053                                                                                                       ".
Definition d7188 : text := "           D10054                                                                                                       ".
Definition d7189 : text := " D10195  3 D01250".
Definition d7190 : text := "           D03250".
Definition d7191 : text := "           D04250".
Definition d7192 : text := " D11001  9 D01051                                                                                                       ".
Definition d7193 : text := "           B07002                                                                                                       ".
Definition d7194 : text := "           B11031                                                                                                       ".
Definition d7195 : text := "           B11032                                                                                                       ".
Definition d7196 : text := "           B11033                                                                                                       ".
Definition d7197 : text := "           B20041                                                                                                       ".
Definition d7198 : text := " D11002  4 D01065                                                                                                       ".
Definition d7199 : text := "           D01066                                                                                                       ".
Definition d7200 : text := "           D11003                                                                                                       ".
Definition d7201 : text := "           D11004                                                                                                       ".
Definition d7202 : text := " D11003  5 B10070                                                                                                       ".
Definition d7203 : text := "           B13002                                                                                                       ".
Definition d7204 : text := " D11004 12 R01000                                                                                                       ".
Definition d7205 : text := "           B11034                                                                                                       ".
Definition d7206 : text := "           B11035                                                                                                       ".
Definition d7207 : text := "           B11075                                                                                                       ".
Definition d7208 : text := "           B11076                                                                                                       ".
Definition d7209 : text := "           B33025                                                                                                       ".
Definition d7210 : text := "           B33026                                                                                                       ".
Definition d7211 : text := " D11005 13 B01008                                                                                                       ".
Definition d7212 : text := "           B01023                                                                                                       ".
Definition d7213 : text := "           B07010                                                                                                       ".
Definition d7214 : text := "           B08009                                                                                                       ".
Definition d7215 : text := "           B11036                                                                                                       ".
Definition d7216 : text := " D11006  6 B07010                                                                                                       ".
Definition d7217 : text := " D11193 16 D01197                                                                                                       ".
Definition d7218 : text := " D12001  2 D01043                                                                                                       ".
Definition d7219 : text := "           D04001                                                                                                       ".
Definition d7220 : text := " D12002  2 D01043                                                                                                       ".
Definition d7221 : text := "           D04002                                                                                                       ".
Definition d7222 : text := " D12003  2 D01042                                                                                                       ".
Definition d7223 : text := "           D04003                                                                                                       ".
Definition d7224 : text := " D12004  2 D01042                                                                                                       ".
Definition d7225 : text := "           D04004                                                                                                       ".
Definition d7226 : text := " D12005  2 D01042                                                                                                       ".
Definition d7227 : text := "           B20014                                                                                                       ".
Definition d7228 : text := " D12006  2 D01044                                                                                                       ".
Definition d7229 : text := "           D04005                                                                                                       ".
Definition d7230 : text := " D12007  2 D01042                                                                                                       ".
Definition d7231 : text := "           D04006                                                                                                       ".
Definition d7232 : text := " D12010  6 B01007                                                                                                       ".
Definition d7233 : text := "           B05040                                                                                                       ".
Definition d7234 : text := "           B05041                                                                                                       ".
Definition d7235 : text := "           B04043                                                                                                       ".
Definition d7236 : text := " D12014  8 D12010                                                                                                       ".
Definition d7237 : text := "           D12011                                                                                                       ".
Definition d7238 : text := "           R05056                                                                                                       ".
Definition d7239 : text := "           B05042                                                                                                       ".
Definition d7240 : text := "           B05052                                                                                                       ".
Definition d7241 : text := "           D12012                                                                                                       ".
Definition d7242 : text := "           D12013                                                                                                       ".
Definition d7243 : text := " D12016  3 D12010                                                                                                       ".
Definition d7244 : text := "           D12015                                                                                                       ".
Definition d7245 : text := " D12018  3 D12010                                                                                                       ".
Definition d7246 : text := "           D12017                                                                                                       ".
Definition d7247 : text := " D12020 11 D01047                                                                                                       ".
Definition d7248 : text := "           D01048                                                                                                       ".
Definition d7249 : text := "           B15015                                                                                                       ".
Definition d7250 : text := "           B29002                                                                                                       ".
Definition d7251 : text := "           B21076                                                                                                       ".
Definition d7252 : text := "           R04012                                                                                                       ".
Definition d7253 : text := "           B06030                                                                                                       ".
Definition d7254 : text := "           R02012                                                                                                       ".
Definition d7255 : text := "           B05030                                                                                                       ".
Definition d7256 : text := "           B21075                                                                                                       ".
Definition d7257 : text := "           B21066                                                                                                       ".
Definition d7258 : text := " D12021  6 D01047                                                                                                       ".
Definition d7259 : text := "           D01049                                                                                                       ".
Definition d7260 : text := "           B21067                                                                                                       ".
Definition d7261 : text := " D12022 15 D01047                                                                                                       ".
Definition d7262 : text := "           B08022                                                                                                       ".
Definition d7263 : text := "           B11050                                                                                                       ".
Definition d7264 : text := "           B22070                                                                                                       ".
Definition d7265 : text := "           B22026                                                                                                       ".
Definition d7266 : text := "           D12041                                                                                                       ".
Definition d7267 : text := "           B10050                                                                                                       ".
Definition d7268 : text := "           B21068                                                                                                       ".
Definition d7269 : text := "           B21071                                                                                                       ".
Definition d7270 : text := "           B21072                                                                                                       ".
Definition d7271 : text := "           B21073                                                                                                       ".
Definition d7272 : text := "           D12042                                                                                                       ".
Definition d7273 : text := "           B15011                                                                                                       ".
Definition d7274 : text := " D12023  7 D01047                                                                                                       ".
Definition d7275 : text := "           R03003                                                                                                       ".
Definition d7276 : text := "           B22050                                                                                                       ".
Definition d7277 : text := "           B21069                                                                                                       ".
Definition d7278 : text := "           B21085                                                                                                       ".
Definition d7279 : text := " D12024 11 D12020                                                                                                       ".
Definition d7280 : text := "           B08060                                                                                                       ".
Definition d7281 : text := "           B25014                                                                                                       ".
Definition d7282 : text := "           B22101                                                                                                       ".
Definition d7283 : text := "           B22097                                                                                                       ".
Definition d7284 : text := "           B22098                                                                                                       ".
Definition d7285 : text := "           B22099                                                                                                       ".
Definition d7286 : text := "           B22100                                                                                                       ".
Definition d7287 : text := " D12025 11 D12019                                                                                                       ".
Definition d7288 : text := " D12026 19 D01046                                                                                                       ".
Definition d7289 : text := "           D12031                                                                                                       ".
Definition d7290 : text := "           D12030                                                                                                       ".
Definition d7291 : text := "           B21110                                                                                                       ".
Definition d7292 : text := "           D21027                                                                                                       ".
Definition d7293 : text := "           B21111                                                                                                       ".
Definition d7294 : text := "           B21112                                                                                                       ".
Definition d7295 : text := "           B21113                                                                                                       ".
Definition d7296 : text := " D12027  9 D01047                                                                                                       ".
Definition d7297 : text := "           R05009                                                                                                       ".
Definition d7298 : text := "           B21070                                                                                                       ".
Definition d7299 : text := " D12031  8 B05034                                                                                                       ".
Definition d7300 : text := "           B06034                                                                                                       ".
Definition d7301 : text := "           B21109                                                                                                       ".
Definition d7302 : text := "           B11081                                                                                                       ".
Definition d7303 : text := "           B11082                                                                                                       ".
Definition d7304 : text := "           B21101                                                                                                       ".
Definition d7305 : text := "           B21102                                                                                                       ".
Definition d7306 : text := "           B21103                                                                                                       ".
Definition d7307 : text := " D12032  4 B21120                                                                                                       ".
Definition d7308 : text := "           B21121                                                                                                       ".
Definition d7309 : text := "           B21122                                                                                                       ".
Definition d7310 : text := " D12033  4 B02104                                                                                                       ".
Definition d7311 : text := "           B12065                                                                                                       ".
Definition d7312 : text := " D12042  6 B21077                                                                                                       ".
Definition d7313 : text := "           B21078                                                                                                       ".
Definition d7314 : text := "           B21079                                                                                                       ".
Definition d7315 : text := "           B21080                                                                                                       ".
Definition d7316 : text := "           B21081                                                                                                       ".
Definition d7317 : text := "           B21082                                                                                                       ".
Definition d7318 : text := " D12045 21 B01007                                                                                                       ".
Definition d7319 : text := "           B01096                                                                                                       ".
Definition d7320 : text := "           B25061                                                                                                       ".
Definition d7321 : text := "           B12180                                                                                                       ".
Definition d7322 : text := "           B12181                                                                                                       ".
Definition d7323 : text := "           B12182                                                                                                       ".
Definition d7324 : text := "           B12183                                                                                                       ".
Definition d7325 : text := "           B12184                                                                                                       ".
Definition d7326 : text := "           B12185                                                                                                       ".
Definition d7327 : text := "           B02174                                                                                                       ".
Definition d7328 : text := "           B21086                                                                                                       ".
Definition d7329 : text := "           B12186                                                                                                       ".
Definition d7330 : text := "           B21087                                                                                                       ".
Definition d7331 : text := "           B12187                                                                                                       ".
Definition d7332 : text := "           B33043                                                                                                       ".
Definition d7333 : text := " D13009  3 B21001                                                                                                       ".
Definition d7334 : text := "           B21001                                                                                                       ".
Definition d7335 : text := " D13010  3 B21036                                                                                                       ".
Definition d7336 : text := "           B21036                                                                                                       ".
Definition d7337 : text := " D13031  4 B06002                                                                                                       ".
Definition d7338 : text := "           B06012                                                                                                       ".
Definition d7339 : text := "           B30001                                                                                                       ".
Definition d7340 : text := " D13032  4 B05002                                                                                                       ".
Definition d7341 : text := "           B05012                                                                                                       ".
Definition d7342 : text := "           D13031                                                                                                       ".
Definition d7343 : text := " D13041  9 B06002                                                                                                       ".
Definition d7344 : text := "           R10000                                                                                                       ".
Definition d7345 : text := " D13042  4 B05002                                                                                                       ".
Definition d7346 : text := "           D13041                                                                                                       ".
Definition d7347 : text := " D13043 11 B06002                                                                                                       ".
Definition d7348 : text := "           B05002                                                                                                       ".
Definition d7349 : text := "           R12000                                                                                                       ".
Definition d7350 : text := " D15001  5 B01011                                                                                                       ".
Definition d7351 : text := "           D06001                                                                                                       ".
Definition d7352 : text := " D15002  5 B01011                                                                                                       ".
Definition d7353 : text := "           D06004                                                                                                       ".
Definition d7354 : text := " D16001 10 D01011                                                                                                       ".
Definition d7355 : text := "           B01021                                                                                                       ".
Definition d7356 : text := "           B02041                                                                                                       ".
Definition d7357 : text := "           B19001                                                                                                       ".
Definition d7358 : text := "           B19002                                                                                                       ".
Definition d7359 : text := "           B19003                                                                                                       ".
Definition d7360 : text := "           B19004                                                                                                       ".
Definition d7361 : text := " D16002 15 B08021                                                                                                       ".
Definition d7362 : text := " D16003 10 R09000                                                                                                       ".
Definition d7363 : text := "           B08011                                                                                                       ".
Definition d7364 : text := "           B08007                                                                                                       ".
Definition d7365 : text := " D16004 11 R10000                                                                                                       ".
Definition d7366 : text := " D16005  9 R08000                                                                                                       ".
Definition d7367 : text := "           B08005                                                                                                       ".
Definition d7368 : text := "           B01026                                                                                                       ".
Definition d7369 : text := " D16006 12 R11000                                                                                                       ".
Definition d7370 : text := " D16007 10 R09000                                                                                                       ".
Definition d7371 : text := "           B19005                                                                                                       ".
Definition d7372 : text := "           B19006                                                                                                       ".
Definition d7373 : text := " D16008 11 R10000                                                                                                       ".
Definition d7374 : text := " D16009 11 R10000                                                                                                       ".
Definition d7375 : text := " D16010  8 R07000                                                                                                       ".
Definition d7376 : text := "           B01022                                                                                                       ".
Definition d7377 : text := " D16011 17 R16000                                                                                                       ".
Definition d7378 : text := "           B20090                                                                                                       ".
Definition d7379 : text := " D16020  5 B01023".
Definition d7380 : text := "           B01025".
Definition d7381 : text := "           B01027".
Definition d7382 : text := " D16021 23 D01023".
Definition d7383 : text := "           B02041".
Definition d7384 : text := "           B19001".
Definition d7385 : text := "           B19007".
Definition d7386 : text := "           B19005".
Definition d7387 : text := "           B19006".
Definition d7388 : text := "           B19008".
Definition d7389 : text := "           B08005".
Definition d7390 : text := "           B10004".
Definition d7391 : text := "           B11040".
Definition d7392 : text := "           R05004".
Definition d7393 : text := "           B05021".
Definition d7394 : text := "           R02002".
Definition d7395 : text := "           B19003".
Definition d7396 : text := "           B19004".
Definition d7397 : text := " D16022 23 B01032                                                                                                       ".
Definition d7398 : text := "           B19010                                                                                                       ".
Definition d7399 : text := "           R18000                                                                                                       ".
Definition d7400 : text := "           B04014                                                                                                       ".
Definition d7401 : text := "           B04075                                                                                                       ".
Definition d7402 : text := "           B11040                                                                                                       ".
Definition d7403 : text := "           B19008                                                                                                       ".
Definition d7404 : text := "           R02002                                                                                                       ".
Definition d7405 : text := " D16026  2 D16020".
Definition d7406 : text := "           D16021".
Definition d7407 : text := " D18001  2 D01025                                                                                                       ".
Definition d7408 : text := "           B24011                                                                                                       ".
Definition d7409 : text := " D18003  4 D01026                                                                                                       ".
Definition d7410 : text := "           B24005                                                                                                       ".
Definition d7411 : text := "           B24004                                                                                                       ".
Definition d7412 : text := "           B24021                                                                                                       ".
Definition d7413 : text := " D18004  6 D01025                                                                                                       ".
Definition d7414 : text := "           B04023                                                                                                       ".
Definition d7415 : text := "           B24022                                                                                                       ".
Definition d7416 : text := " D21001  6 B02101                                                                                                       ".
Definition d7417 : text := "           B02114                                                                                                       ".
Definition d7418 : text := "           B02105                                                                                                       ".
Definition d7419 : text := "           B02106                                                                                                       ".
Definition d7420 : text := "           B02107                                                                                                       ".
Definition d7421 : text := "           B02121                                                                                                       ".
Definition d7422 : text := " D21003  4 B21051                                                                                                       ".
Definition d7423 : text := "           B21014                                                                                                       ".
Definition d7424 : text := "           B21017                                                                                                       ".
Definition d7425 : text := "           B21030                                                                                                       ".
Definition d7426 : text := " D21004  4 D01031                                                                                                       ".
Definition d7427 : text := "           D21003                                                                                                       ".
Definition d7428 : text := " D21005 12 B25004                                                                                                       ".
Definition d7429 : text := "           B02122                                                                                                       ".
Definition d7430 : text := "           B02123                                                                                                       ".
Definition d7431 : text := "           B02124                                                                                                       ".
Definition d7432 : text := "           B02125                                                                                                       ".
Definition d7433 : text := "           B02126                                                                                                       ".
Definition d7434 : text := "           B02127                                                                                                       ".
Definition d7435 : text := "           B02128                                                                                                       ".
Definition d7436 : text := "           B02129                                                                                                       ".
Definition d7437 : text := "           B02130                                                                                                       ".
Definition d7438 : text := "           B02131                                                                                                       ".
Definition d7439 : text := " D21006  4 B25001                                                                                                       ".
Definition d7440 : text := "           B25002                                                                                                       ".
Definition d7441 : text := "           B25003                                                                                                       ".
Definition d7442 : text := "           B25005                                                                                                       ".
Definition d7443 : text := " D21007  8 B25009                                                                                                       ".
Definition d7444 : text := "           B25010                                                                                                       ".
Definition d7445 : text := "           B25011                                                                                                       ".
Definition d7446 : text := "           B25012                                                                                                       ".
Definition d7447 : text := "           B25013                                                                                                       ".
Definition d7448 : text := "           B25015                                                                                                       ".
Definition d7449 : text := "           B25016                                                                                                       ".
Definition d7450 : text := "           B25017                                                                                                       ".
Definition d7451 : text := " D21008  3 B25006                                                                                                       ".
Definition d7452 : text := "           B25007                                                                                                       ".
Definition d7453 : text := "           B25008                                                                                                       ".
Definition d7454 : text := " D21009  2 B25018                                                                                                       ".
Definition d7455 : text := "           B25019                                                                                                       ".
Definition d7456 : text := " D21010 13 B02101                                                                                                       ".
Definition d7457 : text := "           B02102                                                                                                       ".
Definition d7458 : text := "           B02103                                                                                                       ".
Definition d7459 : text := "           B02104                                                                                                       ".
Definition d7460 : text := "           B02108                                                                                                       ".
Definition d7461 : text := "           B02109                                                                                                       ".
Definition d7462 : text := "           B02110                                                                                                       ".
Definition d7463 : text := "           B02132                                                                                                       ".
Definition d7464 : text := "           B02133                                                                                                       ".
Definition d7465 : text := " D21011  3 B30031                                                                                                       ".
Definition d7466 : text := "           B30032                                                                                                       ".
Definition d7467 : text := " D21012  2 R01000                                                                                                       ".
Definition d7468 : text := "           B02135                                                                                                       ".
Definition d7469 : text := " D35001  4 B08035".
Definition d7470 : text := "           B35001".
Definition d7471 : text := "           B08036".
Definition d7472 : text := "           D01001".
Definition d7473 : text := " D35002  4 B08035".
Definition d7474 : text := "           B01033".
Definition d7475 : text := " D35003  6 B08021".
Definition d7476 : text := "           B04073".
Definition d7477 : text := " D35004  7 B08021".
Definition d7478 : text := "           B35000".
Definition d7479 : text := "           B35011".
Definition d7480 : text := " D35005  7 B08021".
Definition d7481 : text := "           B01001".
Definition d7482 : text := " D35006  7 B08021".
Definition d7483 : text := "           B01003".
Definition d7484 : text := " D35007  9 B08021".
Definition d7485 : text := "           B01002".
Definition d7486 : text := " D35010  3 D35002".
Definition d7487 : text := "           D35003".
Definition d7488 : text := "           D35007".
