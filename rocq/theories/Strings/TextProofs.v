From Coq Require Import ZifyBool ZifyNat.
From Verif Require Import Base Strings.Model Strings.Spec Strings.Proofs.
Local Open Scope Z_scope.

(** ** Hexadecimal digits *)
Lemma hex_digit_ok n : 0 <= n < 16 -> c_isxdigit (hex_digit n) = true /\ hex_value (hex_digit n) = n.
Proof. intros H. unfold hex_digit, c_isxdigit, hex_value, c_isdigit. bools; lia. Qed.

Lemma hex_byte_value c : 0 <= c < 256 -> u8 (strtoul16 (hex_byte c)) = c.
Proof.
  intros H. unfold hex_byte. assert (D : 0 <= c / 16 < 16 /\ 0 <= c mod 16 < 16) by (Z.to_euclidean_division_equations; lia).
  destruct D as [D1 D2]. destruct (hex_digit_ok _ D1) as [X1 V1]. destruct (hex_digit_ok _ D2) as [X2 V2].
  assert (N : c_isspace (hex_digit (c / 16)) = false /\ hex_digit (c / 16) <> 45 /\ hex_digit (c / 16) <> 43).
  { unfold hex_digit, c_isspace. bools; lia. }
  destruct N as (N1 & N2 & N3). unfold strtoul16. cbn [lstrip]. rewrite N1.
  assert (E : strtoul_digits 0 [hex_digit (c / 16); hex_digit (c mod 16)] = c).
  { cbn [strtoul_digits]. rewrite X1, X2, V1, V2. Z.to_euclidean_division_equations; lia. }
  destruct (Z.eqb_spec (hex_digit (c / 16)) 45); [contradiction|]. destruct (Z.eqb_spec (hex_digit (c / 16)) 43); [contradiction|].
  rewrite E. unfold u8. apply Z.mod_small. lia.
Qed.

(** ** URLs *)
Lemma decode_encode_url s : forall size i, Forall is_byte s -> 2 <= size < 2 ^ 64 -> 0 <= i -> i + Z.of_nat (length (encode_url s)) = size ->
  decode_url_from size i (encode_url s) = s.
Proof.
  unfold encode_url. induction s as [|c s IH]; intros size i B Sz I L; [reflexivity|]. apply Forall_cons_iff in B as [Bc B']. unfold is_byte in Bc.
  cbn [flat_map] in L |- *. destruct (url_plain c) eqn:P.
  - cbn [app length] in L |- *. cbn [decode_url_from]. destruct (Z.eqb_spec c 37) as [-> |N]; [discriminate P|].
    rewrite IH by (auto; lia). reflexivity.
  - cbn [app length hex_byte] in L |- *. change (hex_digit (c / 16) :: hex_digit (c mod 16) :: ?r) with (hex_byte c ++ r) in *.
    cbn [decode_url_from Z.eqb Pos.eqb hex_byte app]. rewrite Z.mod_small by lia.
    replace (_ <=? i) with false by lia. change [hex_digit (c / 16); hex_digit (c mod 16)] with (hex_byte c). rewrite hex_byte_value by lia.
    rewrite IH by (auto; lia). reflexivity.
Qed.

Lemma encode_url_safe s : Forall is_byte s -> Forall url_safe (encode_url s).
Proof.
  intros B. induction B as [|c s Bc B IH]; [constructor|]. unfold is_byte in Bc. unfold encode_url. cbn [flat_map]. apply Forall_app. split; [|exact IH].
  destruct (url_plain c) eqn:P.
  - apply Forall_cons; [|constructor]. unfold url_plain, c_isdigit in P. unfold url_safe. lia.
  - unfold hex_byte. assert (D : 0 <= c / 16 < 16 /\ 0 <= c mod 16 < 16) by (Z.to_euclidean_division_equations; lia).
    repeat apply Forall_cons; try apply Forall_nil; unfold url_safe, hex_digit; bools; lia.
Qed.

(** ** C strings *)
Definition arrives (c : Z) : Z := if (c =? 10) || (c =? 9) then c else if c_iscntrl c then 0 else c.

Lemma escaped_zero d : escaped_byte d = 0. Proof. reflexivity. Qed.

Lemma decode_encode_cstring s rest : Forall is_byte s ->
  decode_cstring (encode_cstring s ++ 34 :: rest) = (map arrives s, S (length (encode_cstring s))) /\
  decode_cstring (encode_cstring s) = (map arrives s, length (encode_cstring s)).
Proof.
  intros B. induction B as [|c s Bc B IH]; [split; reflexivity|]. unfold is_byte in Bc.
  unfold encode_cstring in *. cbn [flat_map map]. set (e := flat_map encode_cchar s) in *. rewrite <- app_assoc, app_length.
  assert (X : forall t m n, decode_cstring t = (m, n) -> decode_cstring (encode_cchar c ++ t) = (arrives c :: m, (length (encode_cchar c) + n)%nat)).
  { intros t m n E. unfold encode_cchar, arrives.
    destruct (Z.eqb_spec c 10) as [-> |N1]; [cbn; rewrite E; reflexivity|]. destruct (Z.eqb_spec c 9) as [-> |N2]; [cbn; rewrite E; reflexivity|]. cbn [orb].
    destruct (Z.eqb_spec c 0) as [-> |N3]; [cbn; rewrite E; reflexivity|]. cbn [orb]. destruct (c_iscntrl c) eqn:C.
    - unfold hex_byte. assert (D : 0 <= c / 16 < 16 /\ 0 <= c mod 16 < 16) by (Z.to_euclidean_division_equations; lia).
      destruct D as [D1 D2]. destruct (hex_digit_ok _ D1) as [X1 _]. destruct (hex_digit_ok _ D2) as [X2 _].
      cbn [app decode_cstring Z.eqb Pos.eqb length]. rewrite X1, X2, E. reflexivity.
    - destruct (Z.eqb_spec c 34) as [-> |N4]; [cbn; rewrite E; reflexivity|]. destruct (Z.eqb_spec c 92) as [-> |N5]; [cbn; rewrite E; reflexivity|]. cbn [orb app decode_cstring length].
      destruct (Z.eqb_spec c 34); [congruence|]. destruct (Z.eqb_spec c 92); [congruence|]. rewrite E. reflexivity. }
  destruct IH as [I1 I2]. split.
  - rewrite (X _ _ _ I1). f_equal. lia.
  - rewrite (X _ _ _ I2). reflexivity.
Qed.

Lemma arrives_quotable c : c_quotable c -> arrives c = c.
Proof. unfold c_quotable, arrives, c_iscntrl. bools; lia. Qed.

(** Nothing in a quoted text ends the quotes: every double quote is after a backslash that belongs to it. *)
Lemma encode_cstring_plain s : Forall c_plain s -> encode_cstring s = s.
Proof.
  intros P. induction P as [|c s Pc P IH]; [reflexivity|]. unfold encode_cstring in *. cbn [flat_map]. rewrite IH. unfold c_plain in Pc.
  unfold encode_cchar, c_iscntrl. bools; try reflexivity; lia.
Qed.

Lemma encode_cstring_printable s : Forall is_byte s -> Forall (fun c => 32 <= c <= 255 /\ c <> 127) (encode_cstring s).
Proof.
  intros B. induction B as [|c s Bc B IH]; [constructor|]. unfold is_byte in Bc. unfold encode_cstring. cbn [flat_map]. apply Forall_app. split; [|exact IH].
  unfold encode_cchar, hex_byte, c_iscntrl, hex_digit. assert (D : 0 <= c / 16 < 16 /\ 0 <= c mod 16 < 16) by (Z.to_euclidean_division_equations; lia).
  bools; repeat apply Forall_cons; try apply Forall_nil; lia.
Qed.

(** ** Beginnings, ends, spaces *)
Lemma isspace_blank c : c_isspace c = true <-> blank c.
Proof. unfold c_isspace, blank. lia. Qed.

Lemma lstrip_split s : exists a, s = a ++ lstrip s /\ Forall blank a /\ no_blank_first (lstrip s).
Proof.
  induction s as [|c s (a & E & F & N)]; [exists []; repeat split; constructor|]. cbn [lstrip]. destruct (c_isspace c) eqn:C.
  - exists (c :: a). split; [cbn [app]; congruence|]. split; [constructor; [apply isspace_blank; exact C|exact F]|exact N].
  - exists []. split; [reflexivity|]. split; [constructor|]. cbn [no_blank_first]. rewrite <- isspace_blank. congruence.
Qed.

Lemma rstrip_split s : exists b, s = rstrip s ++ b /\ Forall blank b /\ no_blank_last (rstrip s).
Proof.
  destruct (lstrip_split (rev s)) as (a & E & F & N). exists (rev a). unfold rstrip. split.
  - apply (f_equal (@rev Z)) in E. rewrite rev_involutive, rev_app_distr in E. exact E.
  - split; [apply Forall_rev; exact F|]. unfold no_blank_last. rewrite rev_involutive. exact N.
Qed.

Lemma strip_split s : exists a b, s = a ++ strip s ++ b /\ Forall blank a /\ Forall blank b /\ no_blank_first (strip s) /\ no_blank_last (strip s).
Proof.
  destruct (lstrip_split s) as (a & E & F & N). destruct (rstrip_split (lstrip s)) as (b & E2 & F2 & N2). exists a, b. unfold strip.
  split; [rewrite <- E2; exact E|]. split; [exact F|]. split; [exact F2|]. split; [|exact N2].
  rewrite E2 in N. destruct (rstrip (lstrip s)); [exact I|exact N].
Qed.

(** Only one text is what is left. *)
Lemma lstrip_blank a s : Forall blank a -> lstrip (a ++ s) = lstrip s.
Proof. intros F. induction F as [|c a B F IH]; [reflexivity|]. cbn [app lstrip]. apply isspace_blank in B. rewrite B. exact IH. Qed.
Lemma lstrip_none s : no_blank_first s -> lstrip s = s.
Proof. destruct s as [|c s]; [reflexivity|]. cbn [no_blank_first lstrip]. rewrite <- isspace_blank. intros N. destruct (c_isspace c); [congruence|reflexivity]. Qed.

Lemma strip_unique a t b : Forall blank a -> Forall blank b -> no_blank_first t -> no_blank_last t -> strip (a ++ t ++ b) = t.
Proof.
  intros A B N1 N2. unfold strip. rewrite (lstrip_blank a) by exact A. unfold rstrip. destruct t as [|c t].
  - cbn [app]. replace (lstrip b) with (@nil Z); [reflexivity|]. symmetry. rewrite <- (app_nil_r b). rewrite lstrip_blank by exact B. reflexivity.
  - rewrite (lstrip_none ((c :: t) ++ b)) by exact N1. rewrite rev_app_distr, lstrip_blank by (apply Forall_rev; exact B). rewrite lstrip_none by exact N2. apply rev_involutive.
Qed.

Lemma startswith_iff s p : startswith s p = true <-> exists r, s = p ++ r.
Proof.
  unfold startswith. split.
  - destruct (Nat.ltb_spec (length s) (length p)); [discriminate|]. intros E. apply str_eqb_eq in E. exists (skipn (length p) s). rewrite <- E at 1. symmetry. apply firstn_skipn.
  - intros [r ->]. rewrite app_length. destruct (Nat.ltb_spec (length p + length r) (length p)); [lia|]. apply str_eqb_eq. rewrite firstn_app, Nat.sub_diag, firstn_O, firstn_all, app_nil_r. reflexivity.
Qed.
Lemma endswith_iff s p : endswith s p = true <-> exists r, s = r ++ p.
Proof.
  unfold endswith. split.
  - destruct (Nat.ltb_spec (length s) (length p)); [discriminate|]. intros E. apply str_eqb_eq in E. exists (firstn (length s - length p) s). rewrite <- E at 2. symmetry. apply firstn_skipn.
  - intros [r ->]. rewrite app_length. destruct (Nat.ltb_spec (length r + length p) (length p)); [lia|]. apply str_eqb_eq.
    replace (length r + length p - length p)%nat with (length r) by lia. rewrite skipn_app, Nat.sub_diag, skipn_O, skipn_all. reflexivity.
Qed.
