(** Properties C62 and C63: the string helpers. *)
From Coq Require Import ZifyBool ZifyNat String.
From Verif Require Import Base Interp.Example Strings.Model Strings.Spec Strings.Proofs Strings.TextProofs Strings.SplitProofs Strings.PathProofs.
Open Scope list_scope.
Local Open Scope Z_scope.

(** ** C62: what is encoded can be decoded *)

(** Base64: the text is the one of RFC 4648, four characters for every three bytes. *)
Theorem C62_base64_text : forall s, Forall is_byte s ->
  in_base64 s (encode_base64 s) /\ length (encode_base64 s) = (4 * ((length s + 2) / 3))%nat.
Proof.
  intros s B. pose proof (encoded_in_base64 s B) as I64. split; [exact I64|]. clear B. induction I64; cbn [length]; try reflexivity. rewrite IHI64.
  replace (S (S (S (length l))) + 2)%nat with (length l + 2 + 1 * 3)%nat by lia. rewrite Nat.div_add by lia. lia.
Qed.
(** Every text of RFC 4648, whoever wrote it, is decoded to its bytes. *)
Theorem C62_base64_decoded : forall s t, Forall is_byte s -> in_base64 s t -> decode_base64 t = Ok s.
Proof. exact decoded_base64. Qed.
Theorem C62_base64 : forall s, Forall is_byte s -> decode_base64 (encode_base64 s) = Ok s.
Proof. intros s B. exact (decoded_base64 s _ B (encoded_in_base64 s B)). Qed.

Example C62_base64_example :
  encode_base64 (chars "Madrid"%string) = chars "TWFkcmlk"%string /\ encode_base64 [255; 0; 127; 200] = chars "/wB/yA=="%string /\
  decode_base64 (chars "/wB/yA=="%string) = Ok [255; 0; 127; 200] /\ Forall is_byte [255; 0; 127; 200].
Proof. split; [reflexivity|]. split; [reflexivity|]. split; [reflexivity|]. repeat apply Forall_cons; try apply Forall_nil; unfold is_byte; lia. Qed.

(** A text from elsewhere with a "{" is read past the end of a table. *)
Theorem C62_base64_bad_text_refuted : decode_base64 (chars "TWF{"%string) = UB.
Proof. reflexivity. Qed.

(** URLs: any bytes, and the text needs no further quoting. *)
Theorem C62_url : forall s, Forall is_byte s -> Z.of_nat (length (encode_url s)) < 2 ^ 64 ->
  decode_url (encode_url s) = s /\ Forall url_safe (encode_url s).
Proof.
  intros s B L. split; [|apply encode_url_safe; exact B]. unfold decode_url. destruct s as [|c s]; [reflexivity|].
  destruct (Z.leb_spec 2 (Z.of_nat (length (encode_url (c :: s))))) as [G|G].
  - apply decode_encode_url; [exact B|split; [exact G|exact L]|apply Z.le_refl|apply Z.add_0_l].
  - apply Forall_cons_iff in B as [Bc B]. unfold encode_url in *. cbn [flat_map] in *. rewrite app_length in *.
    destruct (url_plain c) eqn:P; [|unfold hex_byte in G; cbn [length] in G; lia]. destruct s as [|d s].
    + cbn [flat_map app decode_url_from]. destruct (Z.eqb_spec c 37) as [-> |]; [discriminate P|reflexivity].
    + cbn [flat_map] in G. rewrite app_length in G. destruct (url_plain d); unfold hex_byte in G; cbn [length] in G; lia.
Qed.
Example C62_url_example : encode_url (chars "a b/c?d=100%"%string) = chars "a%20b%2fc%3fd%3d100%25"%string /\
  Forall is_byte (chars "a b/c?d=100%"%string) /\ decode_url (chars "a%20b%2fc%3fd%3d100%25"%string) = chars "a b/c?d=100%"%string.
Proof. split; [reflexivity|]. split; [|reflexivity]. cbn. repeat apply Forall_cons; try apply Forall_nil; unfold is_byte; lia. Qed.

(** An escape that is cut short is left out, as a comment in the code says, but not when it is all the text. *)
Theorem C62_url_cut_refuted : decode_url (chars "ab%"%string) = chars "ab"%string /\ decode_url (chars "ab%4"%string) = chars "ab"%string /\
  decode_url (chars "%"%string) = [0].
Proof. repeat split; reflexivity. Qed.

(** C strings: between quotes, before anything; also how many characters were read, with the closing quotes. *)
Theorem C62_cstring : forall s, Forall c_quotable s ->
  decode_cstring (encode_cstring s) = (s, length (encode_cstring s)) /\
  forall rest, decode_cstring (encode_cstring s ++ chars """"%string ++ rest) = (s, S (length (encode_cstring s))).
Proof.
  intros s Q. assert (B : Forall is_byte s) by (eapply Forall_impl; [|exact Q]; intros c; unfold c_quotable, is_byte; lia).
  assert (M : map arrives s = s). { clear B. induction Q as [|c s Qc Q IH]; [reflexivity|]. cbn [map]. rewrite IH, arrives_quotable by exact Qc. reflexivity. }
  split.
  - destruct (decode_encode_cstring s [] B) as [_ E]. rewrite E, M. reflexivity.
  - intros rest. destruct (decode_encode_cstring s rest B) as [E _]. change (chars """"%string ++ rest) with (34 :: rest). rewrite E, M. reflexivity.
Qed.
(** The quoted text has no control characters, and ordinary text is left as it is. *)
Theorem C62_cstring_text : forall s, Forall is_byte s ->
  Forall (fun c => 32 <= c <= 255 /\ c <> 127) (encode_cstring s) /\ (Forall c_plain s -> encode_cstring s = s).
Proof. intros s B. split; [apply encode_cstring_printable; exact B|apply encode_cstring_plain]. Qed.
(** The end of the text and its quotes is found in any case. *)
Theorem C62_cstring_end : forall s rest, Forall is_byte s ->
  snd (decode_cstring (encode_cstring s ++ chars """"%string ++ rest)) = S (length (encode_cstring s)).
Proof. intros s rest B. destruct (decode_encode_cstring s rest B) as [E _]. change (chars """"%string ++ rest) with (34 :: rest). rewrite E. reflexivity. Qed.
Example C62_cstring_example :
  Forall c_quotable (chars "say ""hi\"""%string ++ [10; 9; 0; 233]) /\
  encode_cstring (chars "say ""hi\"""%string ++ [10; 9; 0; 233]) = chars "say \""hi\\\""\n\t\x00"%string ++ [233] /\
  decode_cstring (chars "say \""hi\\"", said all"%string) = (chars "say ""hi\"%string, 11%nat).
Proof. split; [cbn; repeat apply Forall_cons; try apply Forall_nil; unfold c_quotable; lia|]. split; reflexivity. Qed.

(** The other control characters come back as zeros, each of them. *)
Theorem C62_cstring_control_refuted : forall c, 0 < c < 32 \/ c = 127 -> c <> 9 -> c <> 10 ->
  encode_cstring [c] = chars "\x"%string ++ hex_byte c /\ fst (decode_cstring (encode_cstring [c])) = [0].
Proof.
  intros c H N1 N2. assert (B : is_byte c) by (unfold is_byte; lia). split.
  - unfold encode_cstring. cbn [flat_map]. rewrite app_nil_r. unfold encode_cchar, c_iscntrl.
    destruct (Z.eqb_spec c 10); [lia|]. destruct (Z.eqb_spec c 9); [lia|]. destruct (((0 <=? c) && (c <=? 31)) || (c =? 127)) eqn:E; [rewrite orb_true_r; reflexivity|lia].
  - destruct (decode_encode_cstring [c] [] (Forall_cons _ B (Forall_nil _))) as [_ ->]. cbn [fst map]. unfold arrives, c_iscntrl.
    destruct (Z.eqb_spec c 10); [lia|]. destruct (Z.eqb_spec c 9); [lia|]. cbn [orb]. destruct (((0 <=? c) && (c <=? 31)) || (c =? 127)) eqn:E; [reflexivity|lia].
Qed.

(** ** C63: splitting, stripping, and paths *)

(** Split gives the pieces between the separators, one after the other, and they are all the text: *)
Theorem C63_split : forall s sep, sep <> [] -> s <> [] ->
  exists l, split s sep false = Ok l /\ cut_at sep s l /\ join sep l = s /\ (forall l', cut_at sep s l' -> l' = l).
Proof.
  intros s sep N Ns. destruct (split_plain sep N s Ns) as (l & E & C). exists l. split; [exact E|]. split; [exact C|].
  split; [apply cut_join; exact C|]. apply cut_unique; exact C.
Qed.
(** with skip_empty those of them that are not empty, if there are any: *)
Theorem C63_split_skip : forall s sep l, sep <> [] -> s <> [] -> cut_at sep s l -> filter nonempty l <> [] ->
  split s sep true = Ok (filter nonempty l).
Proof. intros s sep l N Ns C F. rewrite (split_skip sep N s l Ns C). destruct (filter nonempty l); [congruence|reflexivity]. Qed.
(** and what was joined is split again, when the separator is a character that is in no item. *)
Theorem C63_join_split : forall c l, Forall (fun t => ~ In c t) l -> l <> [[]] -> split (join [c] l) [c] false = Ok l.
Proof.
  intros c l F N. destruct l as [|t l]; [reflexivity|].
  assert (C : cut_at [c] (join [c] (t :: l)) (t :: l)).
  { clear N. revert t F. induction l as [|u l IH]; intros t F; apply Forall_cons_iff in F as [Ft F].
    - apply cut_last. intros (a & b & E). cbn [join] in E. apply Ft. rewrite E. apply in_app_iff. right. left. reflexivity.
    - change (join [c] (t :: u :: l)) with (t ++ [c] ++ join [c] (u :: l)). apply cut_cons; [|apply IH; exact F].
      intros a b E. destruct b as [|x b] using rev_ind; [reflexivity|]. exfalso. apply Ft.
      replace (a ++ [c] ++ b ++ [x]) with ((a ++ [c] ++ b) ++ [x]) in E by (rewrite <- !app_assoc; reflexivity). apply app_inj_tail in E as [-> _].
      apply in_app_iff. right. left. reflexivity. }
  assert (Ns : join [c] (t :: l) <> []).
  { destruct l as [|u l]; [cbn [join]; congruence|]. cbn [join]. intros E. apply app_eq_nil in E as [_ E]. discriminate. }
  destruct (split_plain [c] ltac:(discriminate) _ Ns) as (l' & -> & C'). f_equal. exact (cut_unique [c] _ _ C _ C').
Qed.
Example C63_split_example :
  split (chars "a,,b,"%string) (chars ","%string) false = Ok [chars "a"%string; []; chars "b"%string; []] /\
  split (chars ",,a,,b,"%string) (chars ","%string) true = Ok [chars "a"%string; chars "b"%string] /\
  cut_at (chars ","%string) (chars ",a"%string) [[]; chars "a"%string] /\
  split (chars "one, two"%string) (chars ", "%string) false = Ok [chars "one"%string; chars "two"%string] /\ split [] (chars ","%string) false = Ok [].
Proof.
  split; [reflexivity|]. split; [reflexivity|]. split; [|split; reflexivity].
  apply (cut_cons (chars ","%string) [] (chars "a"%string) [chars "a"%string]).
  - intros a b E. apply (f_equal (@length Z)) in E. rewrite !app_length in E. change (length (chars ","%string)) with 1%nat in E. cbn [length] in E. destruct b; [reflexivity|cbn [length] in E; lia].
  - apply cut_last. intros (a & b & E). change (chars "a"%string) with [97] in E. change (chars ","%string) with [44] in E. destruct a as [|x [|y a]]; discriminate E.
Qed.

(** When all pieces are empty, skip_empty gives one of them nevertheless; *)
Theorem C63_only_separators_refuted : forall s sep l, sep <> [] -> s <> [] -> cut_at sep s l -> filter nonempty l = [] ->
  split s sep true = Ok [[]].
Proof. intros s sep l N Ns C F. rewrite (split_skip sep N s l Ns C), F. reflexivity. Qed.
Example C63_only_separators_example : split (chars ",,"%string) (chars ","%string) true = Ok [[]].
Proof. reflexivity. Qed.
(** an empty separator gives the characters and one more piece; *)
Theorem C63_empty_separator_refuted : split (chars "ab"%string) [] false = Ok [chars "a"%string; chars "b"%string; []].
Proof. reflexivity. Qed.
(** and with skip_empty it never ends. *)
Theorem C63_endless_refuted : forall s fuel, s <> [] -> split_with fuel s [] true = Err EFuel.
Proof.
  intros s fuel N. unfold split_with. destruct s as [|c s]; [congruence|].
  assert (E : forall f t, skip_separators f [] t = Err EFuel) by (intros f; induction f as [|f IH]; intros t; [reflexivity|]; cbn [skip_separators prefixed length skipn]; apply IH).
  rewrite E. reflexivity.
Qed.

(** strip leaves what is between the spaces. *)
Theorem C63_strip : forall s t, strip s = t <->
  exists a b, s = a ++ t ++ b /\ Forall blank a /\ Forall blank b /\ no_blank_first t /\ no_blank_last t.
Proof.
  intros s t. split; [intros <-; apply strip_split|]. intros (a & b & -> & A & B & F & L). apply strip_unique; assumption.
Qed.
Theorem C63_lstrip_rstrip : forall s,
  (exists a, s = a ++ lstrip s /\ Forall blank a /\ no_blank_first (lstrip s)) /\ (exists b, s = rstrip s ++ b /\ Forall blank b /\ no_blank_last (rstrip s)).
Proof. intros s. split; [apply lstrip_split|apply rstrip_split]. Qed.
Theorem C63_startswith : forall s part, startswith s part = true <-> exists rest, s = part ++ rest.
Proof. exact startswith_iff. Qed.
Theorem C63_endswith : forall s part, endswith s part = true <-> exists first, s = first ++ part.
Proof. exact endswith_iff. Qed.
Example C63_strip_example : strip (chars "  a b "%string ++ [10]) = chars "a b"%string /\ strip (chars "   "%string) = [] /\
  startswith (chars "BUFR4"%string) (chars "BUFR"%string) = true /\ endswith (chars "a.txt"%string) (chars ".txt"%string) = true.
Proof. repeat split; reflexivity. Qed.

(** normpath gives the shortest path to the same place; it is undefined for a path that leads above its start. *)
Theorem C63_normpath : forall p,
  normpath p = match place p with Some names => Ok (path_to (absolute p) names) | None => UB end.
Proof. exact normpath_place. Qed.
(** Both paths lead to the same place, and a second normpath changes nothing. *)
Theorem C63_normpath_again : forall p q, normpath p = Ok q -> place q = place p /\ absolute q = absolute p /\ normpath q = Ok q.
Proof.
  intros p q E. rewrite normpath_place in E. destruct (place p) as [l|] eqn:P; [|discriminate]. injection E as <-. pose proof (place_names _ _ P) as N.
  rewrite path_place, path_absolute by exact N. split; [reflexivity|]. split; [reflexivity|]. rewrite normpath_place, path_place, path_absolute by exact N. reflexivity.
Qed.
Theorem C63_normpath_above_refuted : forall p, normpath p = UB <-> place p = None.
Proof. intros p. rewrite normpath_place. destruct (place p); split; congruence. Qed.
Example C63_normpath_example :
  normpath (chars "A//B"%string) = Ok (chars "A/B"%string) /\ normpath (chars "A/./B/"%string) = Ok (chars "A/B"%string) /\
  normpath (chars "A/foo/../B"%string) = Ok (chars "A/B"%string) /\ normpath (chars "/../A/.."%string) = Ok (chars "/"%string) /\
  normpath (chars "A/.."%string) = Ok (chars "."%string) /\ normpath (chars "../A"%string) = UB.
Proof. repeat split; reflexivity. Qed.

(** joinpath: the way along one path, then along the next; it starts where the first path that is not empty does. *)
Theorem C63_joinpath : forall l, components (joinpath l) = flat_map components l /\
  absolute (joinpath l) = match filter nonempty l with [] => false | first :: _ => absolute first end.
Proof. intros l. unfold joinpath. rewrite join_components, join_absolute. split; reflexivity. Qed.
Example C63_joinpath_example : joinpath [chars "/usr/"%string; chars "/share"%string; []; chars "wreport"%string] = chars "/usr/share/wreport"%string.
Proof. reflexivity. Qed.

(** The directory and the name of a file, put together, lead to it. *)
Theorem C63_dirname_basename : forall p, p <> [] -> last p 0 <> 47 ->
  normpath (joinpath [dirname p; basename p]) = normpath p /\ basename p = last (components p) [].
Proof.
  intros p N L. destruct (dir_and_name p N L) as [P A]. split; [rewrite !normpath_place, P, A; reflexivity|].
  rewrite basename_last. unfold components. pose proof (basename_last p) as B. destruct (exists_last (pieces_ne p)) as (ps & t & E).
  assert (Ht : t <> []).
  { intros ->. rewrite E, last_last in B. unfold basename in B. pose proof (after_spec p) as S0. destruct (after_slash p) as [u|]; [|congruence].
    destruct S0 as [(a & ->) _]. subst u. apply L. apply last_last. }
  rewrite E, filter_app, last_last. destruct t as [|x t]; [congruence|]. cbn [filter nonempty]. rewrite last_last. reflexivity.
Qed.
(** They are the text before the last slashes and the one after them; "/" and "." stand for a directory without a name. *)
Theorem C63_dirname : forall p, p <> [] -> last p 0 <> 47 ->
  (~ In 47 p /\ dirname p = chars "."%string /\ basename p = p) \/
  (exists d k, p = d ++ repeat 47 (S k) ++ basename p /\ ~ In 47 (basename p) /\ last d 0 <> 47 /\
     dirname p = match d with [] => chars "/"%string | _ => d end).
Proof. exact dirname_parts. Qed.
(** After a slash at the end they do not. *)
Theorem C63_trailing_slash_refuted :
  dirname (chars "a/b/"%string) = chars "a"%string /\ basename (chars "a/b/"%string) = [] /\
  normpath (joinpath [dirname (chars "a/b/"%string); basename (chars "a/b/"%string)]) = Ok (chars "a"%string) /\
  normpath (chars "a/b/"%string) = Ok (chars "a/b"%string).
Proof. repeat split; reflexivity. Qed.
Example C63_dirname_basename_example :
  dirname (chars "/usr//share/B01.txt"%string) = chars "/usr//share"%string /\ basename (chars "/usr//share/B01.txt"%string) = chars "B01.txt"%string /\
  dirname (chars "B01.txt"%string) = chars "."%string /\ dirname (chars "//B01.txt"%string) = chars "/"%string /\
  last (chars "/usr//share/B01.txt"%string) 0 <> 47.
Proof. split; [reflexivity|]. split; [reflexivity|]. split; [reflexivity|]. split; [reflexivity|]. vm_compute. discriminate. Qed.

Print Assumptions C62_base64_text.
Print Assumptions C62_base64_decoded.
Print Assumptions C62_base64.
Print Assumptions C62_base64_bad_text_refuted.
Print Assumptions C62_url.
Print Assumptions C62_url_cut_refuted.
Print Assumptions C62_cstring.
Print Assumptions C62_cstring_text.
Print Assumptions C62_cstring_end.
Print Assumptions C62_cstring_control_refuted.
Print Assumptions C63_split.
Print Assumptions C63_split_skip.
Print Assumptions C63_join_split.
Print Assumptions C63_only_separators_refuted.
Print Assumptions C63_empty_separator_refuted.
Print Assumptions C63_endless_refuted.
Print Assumptions C63_strip.
Print Assumptions C63_lstrip_rstrip.
Print Assumptions C63_startswith.
Print Assumptions C63_endswith.
Print Assumptions C63_normpath.
Print Assumptions C63_normpath_again.
Print Assumptions C63_normpath_above_refuted.
Print Assumptions C63_joinpath.
Print Assumptions C63_dirname_basename.
Print Assumptions C63_dirname.
Print Assumptions C63_trailing_slash_refuted.
