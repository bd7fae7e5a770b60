(** Property C67: definitions and the choice of tables seen from Python. *)
From Coq Require Import String Lia ZifyBool ZifyNat.
From Verif Require Import Base Bits.Spec Varcode.Model Varinfo.Model Var.Model Var.Spec Select.Model Select.Properties Python.Model Python.Utf8Proofs Python.Info.
From Verif Require Interp.Model Interp.Example Varcode.Properties Tables.Model Tables.LoadProofs Tables.Proofs Listing.Model Python.Properties.
Local Open Scope Z_scope.

Lemma u16_range z : 0 <= u16 z < 2 ^ 16.
Proof. unfold u16. apply Z.mod_pos_bound. lia. Qed.
Lemma parse_range s c : varcode_parse s = Ok c -> 0 <= c < 2 ^ 16.
Proof.
  unfold varcode_parse. destruct s as [s|]; [|discriminate]. intros E. inv_bind E. destruct (a =? 0); [discriminate|]. cbv zeta in Hk.
  repeat (let x := fresh "x" in match type of Hk with (bind ?r _) = _ => destruct r as [x| |]; cbn [bind] in Hk; try discriminate end).
  injection Hk as <-. apply u16_range.
Qed.

(** What a table gives for a key has a code that is a key of the table, for which it gives the same; str() gives that code. *)
Theorem C67_info_key : forall t key i, py_getitem t key = Return i ->
  py_getitem t (PStr (info_code i)) = Return i /\ info_str i = info_code i /\ varcode_parse (Some (info_code i)) = Ok (vi_code i) /\
  exists s b, key = PStr s /\ utf8_encode s = Some b /\ varcode_parse (Some b) = Ok (vi_code i).
Proof.
  intros t key i E. unfold py_getitem in E. destruct key as [| | |s|]; cbn [table_key pbind] in E; try discriminate.
  destruct (utf8_encode s) as [b|] eqn:Eb; cbn [pbind] in E; [|discriminate]. destruct (varcode_parse (Some b)) as [c| |] eqn:Ec; cbn [catch] in E; try discriminate.
  destruct (Tables.Model.query t c) as [j| |] eqn:Eq; cbn [catch] in E; try discriminate. injection E as ->.
  pose proof (Tables.LoadProofs.query_code _ _ _ Eq) as Ei. pose proof (parse_range _ _ Ec) as R. rewrite <- Ei in R, Eq, Ec.
  destruct (Python.Properties.C59_code (mkvar (fresh i) []) R) as (A1 & A2 & _). change (py_code (mkvar (fresh i) [])) with (info_code i) in A1, A2.
  change (c_code (v_cell (mkvar (fresh i) []))) with (vi_code i) in A2.
  split; [|split; [reflexivity|split; [exact A2|exists s, b; auto]]].
  unfold arg_s in A1. unfold py_getitem, table_key. destruct (utf8_encode (info_code i)) as [l|]; [|discriminate].
  destruct (existsb (Z.eqb 0) l); [discriminate|]. injection A1 as ->. cbn [pbind]. rewrite A2. cbn [catch]. rewrite Eq. reflexivity.
Qed.
Print Assumptions C67_info_key.

Lemma ascii_b t : forallb (fun c => (1 <=? c) && (c <? 128)) t = true -> Forall (fun c => 1 <= c < 128) t.
Proof. intros H. apply Forall_forall. rewrite forallb_forall in H. intros c I. specialize (H c I). lia. Qed.
Lemma cstr_text t : Forall (fun c => 1 <= c < 128) t -> str_of_cstring (t ++ [0]) = Return (PStr t).
Proof.
  intros F. unfold str_of_cstring. rewrite existsb_app. cbn [existsb]. rewrite Z.eqb_refl, orb_true_r.
  assert (E : cstr (t ++ [0]) = t). { induction F as [|c t Hc F IH]; [reflexivity|]. cbn [app cstr]. replace (c =? 0) with false by lia. f_equal. exact IH. }
  rewrite E. unfold str_of_bytes. rewrite Python.Properties.ascii_decode; [reflexivity|]. eapply Forall_impl; [|exact F]. cbn. intros; lia.
Qed.

(** The type of a variable is one of four names, and no two types have the same name. *)
Theorem C67_info_type : forall i, exists s, info_type i = Return (PStr s) /\ vartype_parse s = Ok (vi_type i) /\
  forall t, vartype_parse s = Ok t -> t = vi_type i.
Proof.
  intros i. exists (vartype_format (vi_type i)). split; [|split].
  - apply cstr_text. apply ascii_b. destruct (vi_type i); reflexivity.
  - destruct (vi_type i); reflexivity.
  - intros t. destruct (vi_type i); vm_compute; congruence.
Qed.
Print Assumptions C67_info_type.

(** A unit in ASCII, and repr(). *)
Theorem C67_info_text : forall i, Forall (fun c => 1 <= c < 128) (chars (vi_unit i)) -> 0 <= vi_code i < 2 ^ 16 ->
  info_unit i = Return (PStr (chars (vi_unit i))) /\ info_repr i = Return (PStr (chars "Varinfo('" ++ info_code i ++ chars "')")).
Proof.
  intros i F R. split; [apply cstr_text; exact F|]. unfold info_repr.
  destruct (Varcode.Properties.C01_pack_unpack _ R) as (Rf & Rx & Ry & _).
  assert (E : varcode_format (vi_code i) = info_code i /\ Forall (fun c => 1 <= c < 128) (varcode_format (vi_code i))).
  { unfold info_code, py_varcode, varcode_format. set (f := var_f (vi_code i)) in *. set (x := var_x (vi_code i)) in *. set (y := var_y (vi_code i)) in *.
    assert (f = 0 \/ f = 1 \/ f = 2 \/ f = 3) as [X|[X|[X|X]]] by lia; rewrite X; (split; [reflexivity|]); match goal with |- Forall _ (?a :: _) => let b := eval vm_compute in a in change a with b end;
      repeat (apply Forall_cons; [Z.to_euclidean_division_equations; lia|]); apply Forall_nil. }
  destruct E as [<- E]. rewrite (app_assoc (varcode_format _)), (app_assoc (chars "Varinfo('")). apply cstr_text.
  apply Forall_app. split; [apply ascii_b; reflexivity|]. apply Forall_app. split; [exact E|apply ascii_b; reflexivity].
Qed.
Print Assumptions C67_info_text.

(** ** The choice of a table *)

(** Numbers in the range of the fields of a message choose the table that a message with them chooses; those not given are 0. *)
Definition given (k : option Z) (default : Z) : Z := match k with Some z => z | None => default end.
Definition below (n : Z) (k : option Z) : Prop := forall z, k = Some z -> 0 <= z < n.
Definition found (t : option table) : py table := match t with Some t => Return t | None => Raise KeyError end.

Lemma arg_below n k d : n <= 2 ^ 16 -> below n k -> arg_i k d = Return (given k d).
Proof. intros N B. destruct k as [z|]; [|reflexivity]. specialize (B z eq_refl). cbn. unfold in_int, int_min, int_max. replace (_ && _) with true by lia. reflexivity. Qed.
Lemma given_u16 k : below (2 ^ 16) k -> u16 (given k 0) = given k 0.
Proof. intros B. destruct k as [z|]; [|reflexivity]. specialize (B z eq_refl). apply Z.mod_small. cbn [given]. lia. Qed.
Lemma given_u8 k d : 0 <= d < 256 -> below 256 k -> u8 (given k d) = given k d.
Proof. intros D B. destruct k as [z|]; [|apply Z.mod_small; exact D]. specialize (B z eq_refl). apply Z.mod_small. cbn [given]. lia. Qed.

Theorem C67_get_bufr : forall fs td centre subcentre mt v local,
  below (2 ^ 16) centre -> below (2 ^ 16) subcentre -> below 256 mt -> 0 <= v < 256 -> below 256 local ->
  py_get_bufr fs td centre subcentre mt (Some v) local =
    found (fst (find_bufr fs (mkbid (given centre 0) (given subcentre 0) (given mt 0) v (given local 0)) td)) /\
  py_get_bufr fs td centre subcentre mt None local = Raise ValueError.
Proof.
  intros fs td centre subcentre mt v local B1 B2 B3 B4 B5. assert (B4' : below 256 (Some v)) by (intros z E; injection E as <-; exact B4).
  unfold py_get_bufr, py_bufr_id. rewrite (arg_below (2 ^ 16) centre), (arg_below (2 ^ 16) subcentre), (arg_below 256 mt), (arg_below 256 local), (arg_below 256 (Some v)) by (assumption || lia).
  cbn [pbind arg_i]. split; [|reflexivity]. cbn [given]. replace (v =? -1) with false by lia. cbn [pbind].
  rewrite !given_u16, !given_u8 by (assumption || lia). change (u8 v) with (v mod 2 ^ 8). rewrite Z.mod_small by lia. unfold found. destruct (fst (find_bufr _ _ _)); reflexivity.
Qed.
Print Assumptions C67_get_bufr.

Theorem C67_get_crex : forall fs td edition centre subcentre mt mtv mtv_bufr local,
  below 256 edition -> below (2 ^ 16) centre -> below (2 ^ 16) subcentre -> below 256 mt -> below 256 mtv -> below 256 mtv_bufr -> below 256 local ->
  (mtv <> None \/ mtv_bufr <> None ->
   py_get_crex fs td edition centre subcentre mt mtv mtv_bufr local =
     found (fst (find_crex fs (mkcid (given edition 2) (given centre 0) (given subcentre 0) (given mt 0) (given mtv 255) (given mtv_bufr 255) (given local 0)) td))) /\
  py_get_crex fs td edition centre subcentre mt None None local = Raise ValueError.
Proof.
  intros fs td edition centre subcentre mt mtv mtv_bufr local B0 B1 B2 B3 B4 B5 B6.
  unfold py_get_crex, py_crex_id. rewrite (arg_below 256 edition), (arg_below (2 ^ 16) centre), (arg_below (2 ^ 16) subcentre), (arg_below 256 mt), (arg_below 256 local), (arg_below 256 mtv), (arg_below 256 mtv_bufr) by (assumption || lia).
  cbn [pbind arg_i]. split; [|reflexivity]. intros N.
  assert (X : forall k, below 256 k -> (if given k (-1) =? -1 then 255 else u8 (given k (-1))) = given k 255 /\ (k <> None -> (given k (-1) =? -1) = false)).
  { intros k B. destruct k as [z|]; cbn [given]; [|split; [reflexivity|congruence]]. specialize (B z eq_refl). replace (z =? -1) with false by lia. split; [apply Z.mod_small; lia|reflexivity]. }
  destruct (X _ B4) as [E4 N4]. destruct (X _ B5) as [E5 N5]. rewrite E4, E5.
  replace ((given mtv (-1) =? -1) && (given mtv_bufr (-1) =? -1)) with false by (destruct N as [N|N]; [rewrite N4 by exact N|rewrite N5 by exact N]; [|rewrite andb_false_r]; reflexivity).
  cbn [pbind]. rewrite !given_u16, !given_u8 by (assumption || lia). unfold found. destruct (fst (find_crex _ _ _)); reflexivity.
Qed.
Print Assumptions C67_get_crex.

(** A version that no message can have is not refused: it chooses the table of its last eight bits. *)
Theorem C67_version_wraps_refuted : forall fs td centre subcentre mt local v k,
  in_int v = true -> in_int (v + 256 * k) = true -> v <> -1 -> v + 256 * k <> -1 ->
  py_get_bufr fs td centre subcentre mt (Some (v + 256 * k)) local = py_get_bufr fs td centre subcentre mt (Some v) local.
Proof.
  intros fs td centre subcentre mt local v k I1 I2 N1 N2. unfold py_get_bufr, py_bufr_id. cbn [arg_i]. rewrite I1, I2.
  destruct (arg_i centre 0); [|reflexivity..]. destruct (arg_i subcentre 0); [|reflexivity..]. destruct (arg_i mt 0); [|reflexivity..].
  cbn [pbind]. destruct (arg_i local 0); [|reflexivity..]. cbn [pbind]. replace (v =? -1) with false by lia. replace (v + 256 * k =? -1) with false by lia.
  replace (u8 (v + 256 * k)) with (u8 v); [reflexivity|]. unfold u8. rewrite Z.mul_comm. symmetry. apply Z_mod_plus_full.
Qed.
Print Assumptions C67_version_wraps_refuted.

(** ** Examples *)

Definition ex_dirs : tabledirs := mkdirs [Select.Properties.chars "/tables"] None.
Example C67_get_bufr_example :
  chosen (match py_get_bufr ex_fs ex_dirs (Some 98) None None (Some 15) (Some 1) with Return t => Some t | _ => None end) = Some (KBufr (mkbid 98 0 0 16 1)) /\
  chosen (match py_get_bufr ex_fs ex_dirs (Some 98) None None (Some 271) (Some 1) with Return t => Some t | _ => None end) = Some (KBufr (mkbid 98 0 0 16 1)) /\
  chosen (match py_get_crex ex_fs ex_dirs None None None None (Some 3) (Some 0) None with Return t => Some t | _ => None end) = Some (KCrex (mkcid 2 0 0 0 3 0 0)) /\
  in_int 15 = true /\ in_int (15 + 256 * 1) = true.
Proof. repeat split; vm_compute; reflexivity. Qed.

(** The key 012101: the code is B12101. *)
Lemma ex_key_from (x : py varinfo) code : match x with Return i => Some (info_code i, vi_code i, forallb (fun c => (1 <=? c) && (c <? 128)) (chars (vi_unit i))) | _ => None end = Some code ->
  exists i, x = Return i /\ (info_code i, vi_code i, forallb (fun c => (1 <=? c) && (c <? 128)) (chars (vi_unit i))) = code.
Proof. destruct x as [i| |]; try discriminate. intros E. exists i. split; [reflexivity|congruence]. Qed.
Example C67_info_key_example : exists i, py_getitem (Interp.Model.tb_b Interp.Example.ex_tables) (PStr (chars "012101")) = Return i /\
  info_code i = chars "B12101" /\ vi_code i = wr_var 0 12 101 /\ Forall (fun c => 1 <= c < 128) (chars (vi_unit i)).
Proof.
  destruct (ex_key_from (py_getitem (Interp.Model.tb_b Interp.Example.ex_tables) (PStr (chars "012101"))) (chars "B12101", wr_var 0 12 101, true)) as (i & E & X); [vm_compute; reflexivity|].
  apply pair_equal_spec in X as [X U]. apply pair_equal_spec in X as [X C]. exists i. split; [exact E|]. split; [exact X|]. split; [exact C|]. apply ascii_b. exact U.
Qed.
