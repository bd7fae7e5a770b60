# Design of the formal model of wreport

Everything lives in `rocq/theories/`, logical name `Verif`.  Each area has its
own directory with:

* `Model.v` (also `Compressed.v`, `Diff.v`, `Memory.v`, `Format.v`, `Threads/Options.v`; `Checked*.v`, `Again.v` and `AgainComp.v` are not models of code but the decoders with checks of C47 and with the record of C48, `Crex/Again.v` are the conditions of C55; `CheckedEnc.v` are the encoders with checks of C49 and C53): Gallina transcription of the C++ functions.
  Each definition cites the file and lines of `/repo` it models and states its simplifications.
* `Spec.v`: small independent specification used by the statements.  It does not use the model's
  own loops: it speaks of lists, numbers, bits and relations.
* `*Proofs.v`: lemmas.
* `*Properties.v`: the theorems, with `Example`s that exercise the hypotheses and
  `Print Assumptions`.

`seeded/LOG.jsonl` records the wrong programs the theorems were tested against.

## Modelling conventions

* Every C++ function that can fail returns `res A`: `Ok a`, `Err e` (an
  exception of class `e`), or `UB` (undefined behaviour in C++: out-of-range
  shift, out-of-bounds read, double to int conversion out of range, signed
  overflow, use after free).  Properties about successful runs therefore also say that no
  undefined behaviour happens.
* Unbounded loops and recursion through tables take fuel; running out of fuel is
  the separate error `Err EFuel`, never a normal result.  Theorems about results either hold for
  every fuel, or say that there is a fuel that suffices (C36, C43).
* Machine integers are `Z` with explicit wrap-around.  Lengths are `nat` or `Z`.
* `double` is IEEE binary64 (Flocq's `binary_float 53 1024`, round to nearest
  even), so the numeric theorems are about floating point, not about reals.  Literals and constants
  are the binary64 numbers nearest to the decimals in the source.
* The external world (directory listings, file contents, the order an unstable sort leaves, libc's
  printf of doubles, callbacks) is an argument that the theorems quantify over.
* Out-of-range shift counts are the only undefined behaviour that the library
  relies on in normal operation (writing a missing string longer than 32 bits).
  The bit writer is parameterised by a shift policy: `Strict` (undefined
  behaviour) or `X86` (count taken modulo 32).
* A statement that turned out to be false of the code is proved false, under a name that ends in
  `_refuted`, with a concrete counterexample; the property then has status `partial` in
  `MANIFEST.json` unless its English statement already excludes the case.

## Plan per property

| id | modelled | proof |
|----|----------|-------|
| C01 | WR_VAR macros on Z with bit operations | bit lemmas |
| C02 | varcode_parse/format on byte lists, with explicit reads past the terminator | case analysis on characters |
| C03 | BufrOutput (out, pbyte, pbyte_len) and Input (s4_cursor, pbyte, pbyte_len) state machines | refinement to bit lists, induction over the field list |
| C04 | Input::get_bits with out-of-bounds read as UB | refuted for arbitrary cursors; exact condition proved |
| C05, C06 | decode/encode on binary64 | Flocq error bounds |
| C07-C09 | value part of Var, all setters and options | invariant over operation lists |
| C10 | decimal conversion routines with their digit loops | induction on digits |
| C11-C13 | Var with attribute list (values), and as heap cells (copies) | induction; separation of the heap by owners |
| C14-C16 | Vartable / DTable as arrays, binary search with fuel, column parser, alteration list as a heap of entries | loop invariant; history invariant |
| C17 | Opcodes as (begin,end) over a list | refinement to lists |
| C18, C19 | Interpreter::run over an abstract visitor | induction on fuel; refinement to the relation `expands` of Interp/Spec.v in both directions |
| C20 | Bitmap constructor as backwards walk | refinement to filter/combine spec |
| C21, C22 | Interpreter instantiated with encoder and uncompressed decoder | lock-step simulation against `transfer_all` (Codec/Spec.v) |
| C23 | compressed decoding functions | induction over subsets; simulation with the uncompressed decoder |
| C24-C26 | section encoders and header decoder | byte arithmetic |
| C27, C29 | stream readers as functions on the remaining bytes | induction on the stream |
| C28 | CREX buffers | digits/padding lemmas |
| C30 | BufrTableID/CrexTableID comparison, Tabledir search and caches, file name parser | order lemmas; history invariant on the caches |
| C31, C32, C44 | conversion tables, their lookup by an unstable sort, convert_* functions, code tables | Flocq bounds by exact rationals; finite tables lifted to forall |
| C33 | validator visitor, BUFR and CREX | simulation against the encoders, both directions |
| C34 | associated field functions | case analysis |
| C35 | append_dpb loops | loop invariant |
| C36 | fuel bounds | measure argument (`ranked` tables) and refutation |
| C37 | bulletin vector of subsets | list lemmas |
| C38 | compute_range | arithmetic |
| C39 | string and binary codec | refinement to bits |
| C40 | whole BUFR message | composition of C21, C24, C25, C27 |
| C41 | Bulletin/Subset/Var diff for BUFR and CREX (Message/Diff, Message/Compare) | structural induction; with C48, C55, C56 and C61 for decoded bulletins |
| C42 | whole CREX message | as C21 against `crex_transfer`, which does not mention text |
| C43 | CREX decoder: header and data | measure argument and refutation; walk of the interpreter with an invariant (Interp/SureProofs.v) for the absence of undefined behaviour |
| C45 | Var in a heap with explicit allocation, release and pointers | heap invariant (who owns which cell), refinement to values |
| C46 | the files of /repo/tables as literals (generated by tools/shipped.py), the load functions, the choice of tables and the decoder on them | proved fast parsers computed on every line, a rank per sequence, enumeration of the identifiers, composition with C15/C21/C30/C36 |
| C47 | the decoders of Codec once more, with three checks that the library does not make (Codec/Checked.v, CheckedComp.v, Message/Checked.v) | invariant of the interpreter state (bitmaps point into the subset, reference values are bounded); step by step comparison with the decoders of the library |
| C48 | the decoder with a record of what the template asks for (Codec/Again.v, Codec/AgainComp.v for compressed data, Message/Again.v); conditions on the record, also as a function (Codec/AgainCheck.v) | the encoder's specification of C21 follows the recorded run step by step, knowing how it ends (Interp/Follow.v); plain templates by induction; the shipped tables by computation |
| C49 | the encoder with five checks (Codec/CheckedEnc.v, Message/CheckedEnc.v); `made`: variables as the library makes them | step lemmas of C47 (Codec/StepProofs.v) with the encoder's callbacks; a relation between the two encoders (same result, or undefined behaviour and a check, or an unusable bitmap) kept by the interpreter; the library throws no such exception itself |
| C50 | Var::format, both overloads, and setf (Var/Format.v); `%.*f` and strtod are parameters, asked to be correctly rounded (Var/FormatSpec.v) and shown to exist | the double of a number is within half a unit of the last decimal, so the digits are exact, and the double read from them is the one the number had; lengths of the texts, for the buffer of 20 characters; the tables checked by computation |
| C51 | programs of single accesses to the shared locations (registries of tables, index and its caches, altered definitions, table of conversions), threads as interleavings of them (Threads/Model.v); jobs: adaptive sequences of calls | an order between memories (what is known stays known); each function, once run, only reads in all later memories and gives the same; programs that only read cannot race.  Refuted without the first run, by an interleaving |
| C52 | blocks with the objects LocalOverride and Collect, exceptions and handlers (Threads/Options.v) | induction on blocks: options and target restored; all that is done is done with the objects alive at its place |
| C53 | the CREX encoder of C42 on arbitrary bulletins; the same encoder with three checks (Crex/CheckedEnc.v) for comparison | agreement up to the checks by induction on runs of the template; no undefined behaviour from the widths that the operators allow; with the tables of the library, whose widths are computed |
| C54 | the interpreter of templates with any visitor and tables loaded from any CREX file | definitions of CREX files have no bits; one step of the interpreter for the operator and one for the element |
| C55 | the CREX decoder, the conditions of `Crex/Again.v` on what it gave, the encoder | what the decoder read passes the transmission of C42 step by step (`run_follows`), the definitions being those of the table (`run_holds`); then C42 |
| C56 | the three decoders; `Codec/Sound.v` says what a sound variable is | every setter gives a sound value; every method of the decoders keeps the variables sound and the definitions built, and so does the run of a template (`run_keeps`, over `run_holds`) |
| C57 | Printer and ScanFeatures over the interpreter, with all the methods they replace (`Listing/Model.v`); `Listing/Spec.v` has the tree of a template, its text and its features | a walk with any such methods reads the tree (`walk_reads`); it goes through if every node is accepted (`walk_goes`); the text of a tree determines the tree (`listing_inj`) |
| C58 | DDSPrinter over the interpreter, with its lines and their text (`Structured/Model.v`); `Structured/Spec.v` says which variables (`follows`) and which descriptors (`outline`) the lines show | every step of the walk prints lines of the outline (`walk_outline`); the printer follows the run of the decoder that made the subset, of which it needs that what the decoder read is what it finds (`walk_steps`, instantiated for the two decoders) |
| C59 | the Python objects Var and Vartable and the Lua object over the models of variables and tables, with UTF-8 as the interpreter reads and writes it (`Python/Model.v`) | UTF-8 round trip and what a cut does (`Utf8Proofs.v`), then the theorems on setters, enquiries, attributes and lookup (C09, C11, C12, C14, C31, C50) through the bindings |
| C60 | the main of wrep with getopt_long, the lists of codes, the loops over files and messages and the handlers of -U, --print, -T and -F; the decoders, the files and the action -t are parameters (`Wrep/Model.v`); -d is modelled in `Wrep/Dump.v`, -D and the scan of -F in `Wrep/Template.v`, -s in `Wrep/Structure.v` | what a reader finds in a file is a relation (`Wrep/Spec.v`); reading splits the file and reads its own messages again; induction over messages and files; with C27, C40 and C29 a file of encoded bulletins is printed and has nothing unparsable (`Wrep/FileProperties.v`); with C61 the same for the texts of -d (`Wrep/DumpProperties.v`); with C57 the templates of -D and the features of -F, with C65 the list of -L (`Wrep/TemplateProperties.v`), with C58 the texts of -s (`Wrep/StructureProperties.v`) |
| C61 | Bulletin::print with the details of both encodings, Subset::print and both overloads of Var::print (`Print/Model.v`); `%.*f` and the descriptions are parameters | lines are split at newlines and numbers at the first character that is not a digit, so that every line tells its fields; lines of variables give back subsets, variables and attributes; values by C50; decoded bulletins by C56; for two decoded messages the definitions come from the same table (an invariant of runs without operators, `Interp/PlainRun.v`), so equal texts give equal variables (`Print/DecodedProperties.v`, `Print/DecodedCrexProperties.v`) |
| C62 | the encoders and decoders of utils/string.cc byte by byte, with the size_t that wraps around in decode_url, atoi and strtoul as the C library has them, and the table of invbase64 (`Strings/Model.v`) | RFC 4648 is a relation between bytes and characters (`Strings/Spec.v`); induction over three bytes at a time; the others by induction over characters |
| C63 | Split with its iterator, strip, dirname, basename, appendpath, joinpath, normpath; back() of an empty vector is `UB` (`Strings/Model.v`) | cuts at separators are an inductive relation with one result; a path is a list of components and a walk along them, and normpath prints where the walk ends (`SplitProofs.v`, `PathProofs.v`) |
| C64 | Var::setval between two definitions, with convert_units of C31 (`Var/Model.v`, `Conv/Model.v`); Subset::store_variable under another code (`Subset/Copy.v`) | the number an integer stands for under a scale is a real, `amount`; enqd gives it rounded, so equal numbers under two scales are the same double, and setd restores the integer; the bounds of C44 on the converted value leave one integer (`Var/CopyProperties.v`) |
| C65 | print functions of table identifiers, Query::explain_*, Index::find and print, paths of tables (`Select/Explain.v`) | histories of calls of C30 extended with the printing ones; the explained search is the same fold; numbers end at a separator, so the text is injective; the part after the last slash is the file name (`Select/ExplainProperties.v`) |
| C66 | VerboseDataSectionDecoder with both targets, decode_verbose (`Verbose/Model.v`), as a walker of the listings around any decoder | generic projection of walks to runs under an invariant (the bitmap points at variables that exist, values can be printed: C61), then induction over subsets (`Verbose/Proofs.v`, `Runs.v`, `SameProofs.v`); the text is a relation between template, values and text (`Verbose/Spec.v`), by induction over the walk, for variables and for columns (`TextProofs.v`, `TextRuns.v`); the relation leaves one text (`UniqueProofs.v`); templates with 203YYY, 204YYY and bitmaps only have the sameness, and the lines of one attribute (`MoreProperties.v`) |
| C67 | the Python object Varinfo and the methods of Vartable that choose a table (`Python/Info.v`) over lookup (C59) and the choice of tables (C30) | a key parses to 16 bits and a definition found has the code asked for (C02, C14), so its code is a key; arguments by cases on what is given (`Python/InfoProperties.v`); the numbers of a line of a table are those shown (`Python/NumberProperties.v`); that numbers out of range are refused is refuted |
| C68 | the three conversions of the flags of sounding significance (`Conv/Model.v`) | the result of a list of rules, bit by bit, by induction on the rules; a mask of one bit is a test of that bit (`Conv/FlagProperties.v`) |
| C69 | the encoders of BUFR (`Codec/Model.v`, `Message/Model.v`) and CREX (`Crex/Model.v`), with no decoder in the statements | the bits appended by each value, by types; induction on the template and on the subsets; the layout of the sections (`Message/LayoutProofs.v`) around it (`Message/WireProperties.v`, `Crex/WireProperties.v`); sequences, replications and delayed replications through the expansion of C18 (`Message/ExpandedWireProperties.v`, `Crex/ExpandedWireProperties.v`); the decoder on messages so laid out, whoever wrote them and whatever fills the rest of the section (`Message/WireReadProperties.v`); likewise for a line of CREX with any blanks between the values (`Crex/WireReadProperties.v`, one subset: see C42). The operators 201, 202, 207 and 208 in BUFR: `Message/OperatorWireProperties.v`, where `C69_definitions` says with `Interp/Spec.v` which definition each field has. The other operators are covered by the round trips (C21) only |

## What is modelled and what is not

| file | modelled in | left out |
|------|-------------|----------|
| varinfo.h, varinfo.cc | Varcode, Varinfo, Num | text of messages |
| var.h, var.cc | Var/Model.v (values), Var/Memory.v (heap) | format with libc printf is a parameter; print functions in Structured and Print |
| vartable.cc, dtable.cc, opcodes.h | Tables, Threads (registries), Interp/Model.v (Opcodes) | reading lines from a FILE: the file is a list of lines |
| tables.cc, internals/tabledir.cc, tableinfo.h | Select, Threads (caches) | opening files and environment variables: directory contents are arguments |
| tableinfo.cc | Select (comparison and distance; print functions in Explain.v) | |
| conv.cc, codetables.h | Conv | |
| tables/[BD]*.txt | Shipped | every line of the 82 files, byte by byte. That the literals are the files is checked by running tools/shipped.py again (it is not in the kernel's reach) |
| buffers/bufr.cc, buffers/crex.cc | Bits, Crex | realloc failure |
| bufr/input.cc, bufr/decoder.cc | Bits, Codec, Message, Verbose | what the verbose decoder has written when it fails, text of messages |
| bufr_encoder.cc | Codec, Message | |
| crex_encoder.cc, crex_decoder.cc | Crex | verbose traces |
| bulletin/interpreter.cc, bitmaps.cc, associated_fields.cc, internals.cc | Interp, Codec | trace output |
| bulletin/dds-validator.cc | Validator | text of messages |
| bulletin.cc | Message (streams, diff, subsets), Print | FILE errors |
| subset.cc | Subset, Print | |
| options.h | as the record of options that every setter of Var takes | |
| options.h, notes.{h,cc}: Collect, set_target, logf | Threads/Options.v | formatting of notes left out; notes::log() not modelled (its null_stream is shared by threads) |
| bulletin/dds-scanfeatures.cc; interpreter.cc: Printer | Listing | description and unit of an element are a parameter |
| bulletin/dds-printer.cc | Structured/Model.v | all of it; the lines are kept as records next to their text; the description of a definition and `%.*f` are parameters |
| utils/string.{h,cc} | Strings | streams of the interface; Split's remainder() |
| error.cc, benchmark.cc, tests*.cc, other utils/*, internals/{fs,compat}.h | not modelled | exceptions are constructors of `err`; notes are ignored |
| python/var.cc, python/vartable.cc (lookup), python/common.cc, var-lua.cc | Python | reference counts, memory exhaustion, choosing a table by name; the C API handed to other modules |
| src/wrep.cc, options.cc, input.cc, iterate.cc, unparsable.cc, output.cc | `Wrep/Model.v`, `Wrep/Dump.v`, `Wrep/Template.v`, `Wrep/Structure.v` | the texts of -i and the help, the remarks of -v and the wording of errors are left out; what -t prints is a parameter, and so is what -D and -s have written before a failure |
| python/varinfo.cc, python/vartable.cc (get_bufr, get_crex by numbers) | Python/Info.v | descriptions, basenames, load_bufr and load_crex of a path |
| src/info.cc | not modelled | |

## Findings

Each is a `_refuted` theorem (or an example beside one) unless marked (read): seen in the source while
modelling it and part of the model, without a theorem of its own.

1. Streams: a `B` just before `BUFR` hides the message (C27); in CREX a `C` before `CREX++` hides it,
   a `+` before the end mark or a message without values is not found (C29).
2. Editions 2 and 3: years outside 1951..2050, and the high bytes of centre and subcentre, the
   subcategory and the seconds do not survive (C25).
3. Edition 4 always writes master table number 0 (C24); an optional section of odd length gains a NUL
   and the compression flag is lost (C40); lengths are taken modulo 2^24 (C26).
4. A message with no subsets makes the decoder ask for subset 0xffffffff (read, C36).
5. Reading bits past the end of data is possible in one path and refused too early in another (C04);
   a data section shorter than 4 bytes at the end of data is read out of bounds (C36).
6. Fields of 0 or more than 32 bits shift out of range (C23, Bits).
7. Strings: trailing blanks are lost; missing binary data over 32 bits decode as a value (C39).
8. Integer variables: setd wraps modulo 2^32 and accepts NaN (C08); a 32-bit field with the high bit
   set becomes negative (C06); INT_MIN overflows when formatted (C10).
9. Ranges: class 31 and definitions of 10 digits or more (C38); scales beyond 16 index out of bounds.
10. Copy assignment between definitions of different lengths or types overflows, follows a number as
    a pointer, or leaks; assignment from an own attribute is a use after free (C45); move assignment
    keeps the definition of the destination; setattrs from itself drops the attributes (C11).
11. Operators 201/202/207 change character data and code tables, 203000 does not cancel, 207YYY with
    YYY > 9 is undefined (C19).
12. Bitmaps that mark nothing, and a second bitmap that does not fit (double free) (C20); sizes other
    than the number of variables in append_dpb (C35); associated field significance 21 (C34).
13. Compressed messages: an associated field of a subset leaks to the next ones; all ones replication
    factors; associated fields of texts are not read (C23).
14. CREX: check digits are never written, missing values and several texts do not survive (C28); two
    subsets do not decode, delayed replication factors are written with four digits whatever the
    field, B31001 is not written (C42); a header cut after a descriptor makes the decoder loop for
    ever (C43).
15. Conversions: K to C/10 and back gives 2758 K from 300 K (C31); PA to NBAR is the wrong way round,
    NTU to LM is the identity (C44); pairs listed twice with different factors give a value that depends
    on the order left by the sort (C31).
16. Codes: malformed strings are accepted by varcode_parse, short ones are read past the end (C02).
17. Tables: unit and description may fill their arrays without a terminator, CREX lines are indexed
    before their length is checked (read); D tables out of order load and then miss entries (C15);
    Opcodes indexed at its size reads one past the end (C17).
18. Validator: associated field overflow, unknown significance, bitmap size, local descriptor size,
    32-bit fields; in CREX, other definitions, lengths and operators that the encoder does not have (C33).
19. Choice of tables: the wanted table may lose when no local version is wanted, or to a BUFR table in
    CREX; ties depend on the directory order (C30).
20. Code table 08042: humidity alone gains temperature on the way back (C32).
21. Comparison: attributes of unset variables and the compression flag are not compared (C13, C41).
22. Tables shipped with the library (C46): 312018 contains itself in D000000000001100 and
    D000000000980201, chosen for versions 1-2, and 7-11 of centres other than 98 and 255; the scale -20 of
    040247 in B0000000000254019001 is read out of bounds when a message of centre 254 and version 19 is
    decoded; 307059, 307052, 302046, 302047 are lost in D tables that are out of order (12000, 13000,
    98013102); 015028 has a unit that is not ASCII in versions 27-31, which shifts the columns and gives 0 bits, like
    008193 in 980201; most tables for BUFR do not load for CREX; which of two tables of centre 98 and version 33 is chosen
    depends on the order of the directory; tables before version 21 name elements that they do not define (read).
23. CREX: 207010 (C07010) and above read past the end of the table of powers of ten while decoding (C43).
24. BUFR: a data section that ends in the middle of a value, a bitmap that marks nothing, a second bitmap
    that does not fit, compressed differences of 33 to 63 bits, 203YYY with 33 bits or more: each is read
    or used out of bounds; these, 207YYY and table entries of odd widths are the only ways to undefined
    behaviour in decoding (C47).
25. Decoding, encoding and decoding again (C48) does not give the same data for texts with a NUL after
    blanks or as first character and for character data (205YYY) with a NUL; decoded new reference values of 0 cannot be
    encoded (count of the leading zeros of 0); edition 4 loses the master table number; edition 3 messages with a
    year of the century above 150 come back a century earlier. Compression is not kept; from compressed data, a number of class 31 can
    be missing or one more than its field holds, and comes back as another number, and a column of missing associated fields (or
    the one of a text) leaves no attribute and comes back as one without value.
26. Shipped tables: 001099 of version 15 is a text of 204 bits; 024011, 024012, 024013, 024021, 024022 and, for centre 98,
    005234 and 005236 have 32 bits, more than the int that values are stored in (C48, see 8).
27. Encoding has undefined behaviour (C49): a value that 202YYY or 207YYY enlarges to 2^32 or more (double to unsigned
    conversion: 283.15 K with 202138); a text or binary variable shorter than what the descriptor takes, if it has
    no terminator, or a number INT_MIN written as text; 203YYY on an element whose reference value is 0 (`__builtin_clz(0)`);
    a bitmap variable with fewer characters than its length, or without marks; a text above four characters that is not
    set (shift by 32 bits or more, see 1).
28. Var::format cuts numbers at 19 characters (C50): B24001 and B24002 (scale -11, 28 bits) lose a digit from 10^19 Bq on, and
    2*10^19 Bq is read back as 2*10^18 Bq.  The FILE overload is not affected.  An empty text is read back as unset, and
    setf does not read binary values.
29. Shared tables are not protected (C51): the static maps of Vartable::load_* and DTable::load_*, Tabledirs::get and its index, the
    chain of alterations (written by query_altered, a const method that decoding calls) and the table of unit conversions.  The first uses
    in two threads are data races; so is the first use of an alteration of a table that is already loaded.  C51 says what is
    enough: each job once before threads are started.
30. notes::Collect binds a reference to a null pointer in its destructor when there was no target before (C52), as is the case by default.
31. The operators of table C have in CREX the meaning they have in BUFR (C54), and definitions of CREX tables have no size in bits: after 201YYY or
    202YYY numbers mostly cannot be read or written.  201YYY with YYY below 128 makes the width of a text wrap around to more than 536 million
    characters, and encoding it is undefined (C53), as is a text of more than 255 characters (raw_appendf reads past what
    was written in its buffer; with 255 the last character is written as a zero byte).
32. What was decoded from CREX is not always what is decoded after encoding it (C55): with more than one subset the encoder writes a space where the decoder
    takes none; check digits and the subcategory 255 are dropped; in the CREX tables of the library B31001 and B31011 have fields of three characters and B31002 and B31012 of five,
    and the encoder writes these counts with four digits.
33. A reference value given with 203YYY can leave no value in the range of an element (the limits of the digits of the definition are not changed); when values
    out of range are replaced by the nearest limit, the value stored is a limit that is not in the range (C56).
34. print_datadesc throws on templates with 205YYY or 223255 and the scan of features also on 203YYY and 204YYY, although messages with these templates are
    decoded; a listing does not show data present bitmaps (C57).
35. print_structured throws on messages with 203YYY that were decoded; it numbers the lines of attributes from 0 and those of variables from 1, prints number 0 for
    bitmaps and 205YYY, does not end the line of a missing attribute or associated field, and after an attribute prints also those that follow it in the
    variable (C58).
36. From Python: an int that does not fit a C int is stored modulo 2^32 without an error, and one that does not fit a
    long raises SystemError; a str whose UTF-8 form is cut inside a character is accepted and can never be
    read again; bytes shorter than a binary variable are read past their end, and a binary variable is
    read up to its first NUL or past its end; wreport.Var() dereferences a null pointer; wreport.Var(var,
    value) ignores the value; enqa returns the attributes that follow along with the one asked for; len() of
    a table is 0 and a loop over a table never ends (C59).
37. wrep: the colon of the option string is after h instead of p, so that `-p CODES` takes the codes for a file
    name and prints lines without values, and `-h` alone is an error; a bad code ends the program with an exception
    that nobody catches, a code that is too short is ignored; the exit status is 0 whatever failed; a code that is
    not in a subset has no column in the output of --print; a message cut by the end of its file is not copied by
    -U; a CREX message with an unexpected character after its descriptors makes the program loop for ever (C60).
38. Var::print to a C++ stream never writes what it writes to a FILE (C61): the code has a letter instead of a digit, the description is not cut,
    numbers are cut at 19 characters, and the spaces that should indent an attribute are a line of their own. In both texts a missing
    value looks like the text "(undef)" and a text with newlines can look like other variables.
39. utils/string.cc, encodings (C62): decode_cstring turns every `\xNN` into a NUL, because atoi("0xNN") is 0; decode_url("%") is a NUL,
    because size() - 2 wraps around, while the comment says that incomplete escapes are ignored; decode_base64 reads one place past the
    end of its table for the character `{`.
40. utils/string.cc, splitting and paths (C63): normpath calls back() on an empty vector for `..` and every relative path that leads above
    its start; Split with an empty separator returns an empty piece after the last character and with skip_empty never returns; a text of
    separators only gives one empty piece with skip_empty; basename ignores no trailing slash while dirname does.
41. CREX comparison (C41): CrexBulletin::diff_details compares the version of the master table twice and the version of the BUFR master
    table never (bulletin.cc:597 repeats the condition of line 585), so that bulletins which only differ for the latter compare equal, and
    a difference of the former counts as two.
42. Copies between definitions (C64): setval to a binary variable copies as many bytes as the destination has, whatever the source holds: from a
    shorter value or from the digits of a number it reads after their end (var.cc:701, `C64_binary_refuted`). A number copied to a text variable
    too short for its digits is cut without notice (`C64_text`).
43. Choice of a table from Python (C67): Vartable.get_bufr and get_crex pass ints to constructors that take 8 and 16 bits, so that a version out of
    range is not refused but wraps around: 271 gives the tables of version 15 (python/vartable.cc:135-137, `C67_version_wraps_refuted`).
44. Weather codes (C32): the conversions of present and past weather refuse what is above the last code but take any negative number as it is, also
    the -1 that stands for a missing value in the tables of clouds.
45. CREX (C69): the values of a line are separated by blanks, but a missing value is written with no blank before it (buffers/crex.cc:197-207,
    `C69_crex_separated_refuted`); the library reads it back, since it goes by the length of the fields.
## Trusted base

Coq 8.16.1's kernel (`coqchk` is also run on the compiled files), the hand transcription of C++ into
Gallina (each definition cites its lines), and the axioms that `Print Assumptions` lists.  No axiom is
declared in this development.  Those that occur come from the standard library, through its real
numbers and Flocq:

* `R`: `ClassicalDedekindReals.sig_forall_dec`, `ClassicalDedekindReals.sig_not_dec`,
  `FunctionalExtensionality.functional_extensionality_dep`;
* `C`: `Classical_Prop.classic`.

`-` means "closed under the global context".  Theorems whose statements mention a variable
definition depend on these axioms because the record of a definition has two binary64 numbers,
whose Flocq operations are proved correct over the reals.

| theorem | axioms |
|---|---|
| C01: unpack_pack, pack_unpack | - |
| C02: parse_format, parse_rejects, malformed_rejected_refuted | - |
| C03: writer_concatenates, bit_fields_roundtrip | - |
| C04: bits_left, bits_left_past_refuted, get_bits_inside_partial, get_bits_out_of_bounds_iff, get_bits_safe_refuted, get_bits_spurious_eof_refuted, skip_bits, skip_bits_left | - |
| C05: decimal_roundtrip, round_decimal_id, encode_nearest, decimal_order, scale_out_of_bounds | C+R |
| C06: field_through_variable, raw_in_range, wide_integer_refuted, raw_field_roundtrip | C+R |
| C07: always_in_range, history_ok, move_assign_refuted | C+R |
| C08: seti_refused | - |
| C08: setd_refused, setd_clamped, domain_error_unsets, setval_refuted, setd_integer_refuted, setd_integer_nan_refuted | C+R |
| C09: store_integer, store_string, store_undef, seti_enqi, string | - |
| C09: store_double, store_refused, setd_enqd, setd_enqd_integer, enqd_setd | C+R |
| C10: text_roundtrip, text_is_decimal | - |
| C10: int_min_refuted, wrap_refuted | C+R |
| C11: untouched, copy_independent, assign_independent, move_assign_refuted, own_attributes_refuted, equality, equality_refl, equality_sym, equality_trans, mixed_types_refuted | C+R |
| C11: move_assign, move_assign_memory | - |
| C12: attributes_map, attributes_map_from, iteration | - |
| C13: diff_zero, alike, subset_diff_zero, subset_diff, subset_diff_self, diff, diff_self | C+R |
| C13: unset_refuted | - |
| C14: query_bufr, query_lines, query_crex, loaded_is_sorted, bufr_file, crex_file | C+R |
| C15: negative_count, query, any_file_safe, unsorted_refuted | - |
| C16: exact, interned, stable, distinct, alteration_sound, alteration_kind | C+R |
| C17: refines_lists, refines_sublists, pop_partitions, index_past_end_refuted, index | - |
| C18: watching_is_harmless, template_expansion, expansion_is_run, sequence_is_its_content, replication_is_repetition | C+R |
| C19: definition_of_every_element, other_elements_refuted, references_not_cancelled_refuted, large_increase_refuted | C+R |
| C19: cancelled | - |
| C20: positions, present, data_elements | - |
| C20: values_follow_bitmap, no_bitmap, empty_bitmap_refuted, second_bitmap_refuted, reuse_twice_refuted | C+R |
| C21: data_section_round_trip, values_are_the_same, loaded_tables, value_round_trip, all_ones, extra_variables_refuted, other_code_refuted, zero_reference_refuted, missing_string_refuted | C+R |
| C22: attributes_arrive, attributes_come_from_the_sender | C+R |
| C23: base_plus_difference, no_differences, texts, compressed_like_uncompressed, same_variables, associated_field_leak_refuted, factor_all_ones_refuted, wide_differences_refuted, text_associated_field_refuted | C+R |
| C23: columns_exist | - |
| C24: edition4_header, master_table_refuted | C+R |
| C25: edition3_header, year_refuted, centre_refuted | C+R |
| C26: framing, sections_found_again, decoded_is_framed, long_messages_refuted, long_messages_exist | C+R |
| C27: stream, next_message, separator_refuted | C+R |
| C27: end_of_file, reading_ends | - |
| C28: value_round_trip, line_round_trip, missing_with_check_digits_refuted, slash_refuted, leading_space_refuted, trailing_space_refuted | - |
| C29: stream, end_of_file, reading_ends, written_file | - |
| C29: encoded_messages, separator_refuted, plus_refuted, no_values_refuted | C+R |
| C30: bufr_choice, bufr_closest, bufr_found, bufr_order, bufr_exact, bufr_exact_origin, file_names, crex_closest, crex_found, crex_by_bufr_version, any_history, total_orders, exact_refuted, order_refuted, crex_exact_refuted, version_wraps_refuted | - |
| C31: lookup, same_unit, both_ways, round_trip, round_trip_exact, round_trip_kelvin, round_trip_octants, round_trip_refuted, order_refuted | C+R |
| C32: cloud_groups, weather_codes, weather_negative_refuted, cloud_types, cloud_types_back, weather, domains, cloud_types_apart, significance, significance_missing, significance_refuted | - |
| C33: crex_accepted_is_encoded, crex_accepted_iff_sendable, crex_sendable_is_accepted, crex_accepted_round_trip, crex_scale_refuted, crex_length_refuted, crex_raw_refuted, accepted_is_encoded_partial, careful_check_is_sound, sendable_is_accepted, associated_field_refuted, significance_refuted, bitmap_size_refuted, unknown_size_refuted, 32_bits_refuted | C+R |
| C34: field_arrives, missing_field, significance_21_refuted | C+R |
| C34: same_attribute | - |
| C35: append_dpb, first_variables, short_bitmap_refuted, long_bitmap_refuted, append_fixed_dpb | C+R |
| C36: templates_end, ranked_tables, cyclic_table_refuted, decoding_ends, short_data_section_refuted, cut_data_refuted, no_subsets | C+R |
| C36: any_header, total_length_ignored | - |
| C37: obtain_subset, subset, obtained_is_there | - |
| C38: range_encodable_partial, range_crex_partial, bufr_definition_ok, class31_refuted, wide_refuted | C+R |
| C39: string_roundtrip, string_roundtrip_refuted, missing_string_roundtrip, missing_wide_is_ub, binary_roundtrip, missing_binary_refuted | - |
| C39: binary_definition, string_definition | C+R |
| C40: messages_round_trip, equal_bulletin, compression_refuted | C+R |
| C41: both_bufr | - |
| C41: diff_zero, same, any_self, encodings, crex_bufr_version_refuted, crex_counted_twice_refuted, bulletin_diff, self, compression_refuted, decoded, decoded_crex, sent_again, crex_sent_again, same_text, crex_same_text | C+R |
| C42: message_round_trip, two_subsets_refuted, check_digits_refuted, factor_width_refuted, factor_dropped_refuted, table_version_refuted | C+R |
| C43: any_header | - |
| C43: header_ends_refuted, data_end, decoding_ends, decoding_safe, loaded_elements, decoding_safe_refuted | C+R |
| C44: kelvin, octants, units, nanobar_refuted, tenths_refuted | C+R |
| C45: observable, assign_lengths_refuted, assign_types_refuted | - |
| C45: safe, errors, no_leak, assign_leak_refuted, own_attribute_refuted | C+R |
| C46: elements_load, numbers_arrive, crex_load, crex_load_refuted, found, found_refuted, whole, decoding_ends, decoding_ends_refuted | C+R |
| C46: sequences_load, sequences_found_refuted, wmo, order_refuted | - |
| C47: checked_safe, same_without_checks, decoding_safe, end_of_data_refuted, bitmaps_refuted, differences_refuted, operators_refuted, shipped_tables | C+R |
| C48: compressed_data_can_be_sent_again, compressed_class_31_refuted, compressed_associated_fields_refuted, inside_outside_class_31, data_can_be_sent_again, no_local_definitions, texts_refuted, reference_zero_refuted, compressed_messages_can_be_sent_again, messages_can_be_sent_again, master_table_refuted, year_refuted, compressed_shipped_tables, shipped_tables | C+R |
| C49: checked_safe, same_without_checks, exactly, encoding_ends, big_number_refuted, other_type_refuted, reference_zero_refuted, bitmap_refuted, missing_text_refuted, shipped_tables, shipped_tables_end | C+R |
| C50: shipped_tables, shipped_tables_refuted, strtod_exists, number_text, binary_text, file_text_read_back, text_read_back, long_number_refuted, empty_text_refuted, binary_refuted | C+R |
| C50: printf_exists | R |
| C51: threads, again, bufr_tables, crex_tables, altered, first_use_refuted, same_alteration_refuted | C+R |
| C51: threads_end | - |
| C52: restored, in_force, assignment_undone, silent, collect_refuted, collect | C+R |
| C53: checked_safe, same_without_checks, exactly, encoding_ends, always_defined, other_type_refuted, long_text_refuted, bitmap_refuted, narrower_text_refuted, shipped_tables | C+R |
| C53: text_of_255_refuted | - |
| C54: width_refuted, width_fails_refuted, text_wraps_refuted, scale_refuted, increase, text_width, cancel, messages_refuted | C+R |
| C55: again, plain_template, two_subsets_refuted, check_digits_refuted, nul_refuted, local_subcategory_refuted, short_factor_refuted, clamped_factor_refuted, shipped_tables | C+R |
| C56: bufr, crex, files, in_range, encode, bufr_as_crex, crex_as_bufr, empty_range_refuted, shipped_tables | C+R |
| C57: listing, features, when_listed, when_scanned, listing_faithful, same_walk, bitmap_hidden_refuted, implied_factor_refuted, character_data_refuted, not_scanned_refuted | C+R |
| C58: variables, structure, decoded_one_by_one, decoded_compressed, decoded, lines, new_references_refuted, unknown_field_refuted, attribute_number_refuted, newline_refuted | C+R |
| C59: format, format_unset, int, float, text, rebuild, unset, copy, equal, str, get_attrs, table, lua, big_int_refuted, big_int_system_error_refuted, accent_refuted, binary_refuted, value_ignored_refuted, enqa_refuted | C+R |
| C59: code, attributes, bad_key, no_arguments_refuted, table_len_refuted, table_loop_refuted | - |
| C60: dump, dump_ends, dump_encoded_file, dump_encoded_crex_file, encoded_file, encoded_crex_file, unparsable, unparsable_again, print, tables, long_options, options_anywhere, always_ends, short_print_refuted, short_help_refuted, bad_code_refuted, status_refuted, cut_message_refuted, columns_refuted, crex_ends_refuted, structure, structure_head, structure_complete, features, features_one, dds, list_tables | C+R |
| C60: every_file_is_read, code_list | - |
| C61: crex_header_text, decoded_crex_definitions, decoded_crex_text, bufr_header_text, decoded_definitions, decoded_text, bufr_layout, crex_layout, subset_layout, bufr_text, crex_text, decoded_bufr_is_printed, decoded_crex_is_printed, missing_refuted, newline_refuted, optional_refuted, stream_refuted, stream_indent_refuted | C+R |
| C61: same_values | - |
| C62: base64_text, base64_decoded, base64, base64_bad_text_refuted, url, url_cut_refuted, cstring, cstring_text, cstring_end, cstring_control_refuted | - |
| C63: case, case_again, split, split_skip, join_split, only_separators_refuted, empty_separator_refuted, endless_refuted, strip, lstrip_rstrip, startswith, endswith, normpath, normpath_again, normpath_above_refuted, joinpath, dirname_basename, dirname, trailing_slash_refuted | - |
| C64: store_as, store_as_nearest, store_as_unset, store_as_refused, unset, same_definition, exact, exact_refused, nearest, there_and_back, kelvin, units, units_exact, units_back, unknown, text, text_to_number, binary_refuted, binary | C+R |
| C65: no_effect, explain_bufr, explain_crex, identifiers, identifiers_listed, list, by_name, by_name_sequences, files | - |
| C66: text_depends, compressed_text_depends, attribute, compressed_attribute, same, text, compressed_text | C+R |
| C67: info_key, info_type, info_text, get_bufr, get_crex, version_wraps_refuted | - |
| C67: info_numbers, info_numbers_crex | C+R |
| C68: aof, significance_flags, significance_back_flags | - |
| C69: crex_message_expanded, crex_message, crex_data_read, message_expanded, message_operators, message_read_operators, definitions, field, message, field_read, message_read | C+R |
| C69: crex_field, crex_separated_refuted, crex_field_read | - |
