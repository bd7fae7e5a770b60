(** The conditions of Codec/Again.v as a function, so that they can be computed. *)
From Coq Require Import ZArith Lia ZifyBool ZifyNat.
From Verif Require Import Base Bits.Model Bits.StringProofs Num.Float Varcode.Model Varinfo.Model Tables.Model Var.Model Interp.Model
  Codec.Model Codec.Again.
Local Open Scope Z_scope.

Definition roomyb (i : varinfo) : bool :=
  match vi_type i with
  | TInteger | TDecimal => (1 <=? vi_bit_len i) && (vi_bit_len i <=? 32) && (vi_bit_ref i + 2 ^ vi_bit_len i <=? 2 ^ 31)
  | TString => (8 <=? vi_bit_len i) && (vi_bit_len i mod 8 =? 0)
  | TBinary => (1 <=? vi_bit_len i) && (vi_len i =? (vi_bit_len i + 7) / 8)
  end.

Definition is_x86 (p : shift_policy) : bool := match p with X86 => true | _ => false end.

Definition neatb (p : shift_policy) (i : varinfo) (v : option value) : bool :=
  match v with
  | None => match vi_type i with
            | TString => (vi_bit_len i <=? 32) || is_x86 p
            | TBinary => (vi_bit_len i mod 8 =? 0) && (vi_bit_len i <=? 32)
            | _ => true
            end
  | Some (VStr s) => match s with
                     | [] => false
                     | [c] => (c =? 32) || negb (last_is_blank [c])
                     | s => negb (last_is_blank s)
                     end
  | Some _ => true
  end.

Definition value_atb (vars : list var) (pos : nat) (P : cell -> bool) : bool :=
  match nth_error vars pos with Some v => P (v_cell v) | None => true end.

Definition request_okb (p : shift_policy) (T : tables) (vars : list var) (r : request) : bool :=
  match r with
  | RField pos i => roomyb i && value_atb vars pos (fun c => neatb p i (c_val c))
  | RAssoc pos bits sig i => roomyb i && value_atb vars pos (fun c => neatb p i (c_val c)) &&
      match af_code sig with
      | Ok (Some code) => match query (tb_b T) code with
                          | Ok j => is_numeric (vi_type j) && (0 <=? vi_imin j)
                          | _ => false
                          end
      | _ => true
      end
  | RCount i => is_numeric (vi_type i) && roomyb i && (0 <=? vi_bit_ref i)
  | RAttr pos i => roomyb i &&
      match nth_error vars pos with
      | Some v => neatb p i (match var_enqa v (vi_code i) with Some a => c_val a | None => None end)
      | None => true
      end
  | RChars pos code => value_atb vars pos (fun c => match c_val c with
                                                    | Some (VStr s) => Z.of_nat (length s) =? var_y code
                                                    | _ => true
                                                    end)
  | RRef bits code r => negb (r =? 0) && match find_ref T vars code with Ok r' => r' =? r | _ => false end
  end.

Definition same_key (a b : nat * Z) : bool := Nat.eqb (fst a) (fst b) && (snd a =? snd b).
Fixpoint distinctb (l : list (nat * Z)) : bool :=
  match l with
  | [] => true
  | k :: l => negb (existsb (same_key k) l) && distinctb l
  end.

Definition faithfulb (p : shift_policy) (T : tables) (vars : list var) (reqs : list request) : bool :=
  distinctb (keys reqs) && forallb (request_okb p T vars) reqs.

Lemma roomyb_iff i : roomyb i = true <-> roomy i.
Proof. unfold roomyb, roomy. destruct (vi_type i); lia. Qed.

Lemma neatb_iff p i v : neatb p i v = true <-> neat p i v.
Proof.
  unfold neatb, neat. destruct v as [[n|s|b]|].
  1, 3: tauto.
  - destruct s as [|c [|c' s]].
    + split; [discriminate|intros [[] _]; reflexivity].
    + split; intros H.
      * split; [discriminate|]. destruct (Z.eqb_spec c 32) as [Hc|Hc]; [right; rewrite Hc; reflexivity|left]. cbn [orb] in H. destruct (last_is_blank [c]); [discriminate|reflexivity].
      * destruct H as [_ [H|H]]; [rewrite H|injection H as ->]; cbn; [apply orb_true_r|reflexivity].
    + split; intros H.
      * split; [discriminate|left]. destruct (last_is_blank _); [discriminate|reflexivity].
      * destruct H as [_ [H|H]]; [rewrite H; reflexivity|discriminate].
  - destruct (vi_type i); try tauto; try lia. rewrite orb_true_iff. destruct p; cbn; split; intros [H|H]; try (left; lia); try (right; congruence).
Qed.

Lemma value_atb_iff vars pos P Q : (forall c, P c = true <-> Q c) -> value_atb vars pos P = true <-> value_at vars pos Q.
Proof.
  intros H. unfold value_atb, value_at. destruct (nth_error vars pos) as [v|].
  - rewrite H. split; [intros X w E; injection E as <-; exact X|intros X; exact (X v eq_refl)].
  - split; [discriminate|reflexivity].
Qed.

Lemma request_okb_iff p T vars r : request_okb p T vars r = true <-> request_ok p T vars r.
Proof.
  unfold request_okb, request_ok. destruct r as [pos i|pos bits sig i|i|pos i|pos code|bits code r].
  - rewrite andb_true_iff, roomyb_iff, value_atb_iff by (intros c; apply neatb_iff). tauto.
  - rewrite !andb_true_iff, roomyb_iff, value_atb_iff by (intros c; apply neatb_iff).
    assert (X : (match af_code sig with
            | Ok (Some code) => match query (tb_b T) code with Ok j => is_numeric (vi_type j) && (0 <=? vi_imin j) | _ => false end
            | _ => true end) = true <->
      (forall code, af_code sig = Ok (Some code) -> exists j, query (tb_b T) code = Ok j /\ is_numeric (vi_type j) = true /\ 0 <= vi_imin j)).
    { destruct (af_code sig) as [[code|]| |]; try (split; [intros _ ? X; discriminate|reflexivity]).
      split.
      - intros X code' Y. injection Y as <-. destruct (query (tb_b T) code) as [j| |]; try discriminate. exists j. split; [reflexivity|]. apply andb_true_iff in X as [X1 X2]. split; [exact X1|lia].
      - intros X. destruct (X code eq_refl) as (j & -> & H1 & H2). rewrite H1. cbn [andb]. lia. }
    tauto.
  - rewrite !andb_true_iff, roomyb_iff, Z.leb_le. tauto.
  - rewrite andb_true_iff, roomyb_iff. destruct (nth_error vars pos) as [v|].
    + rewrite neatb_iff. split; [intros [H1 H2]; split; [exact H1|]; intros w E; injection E as <-; exact H2|intros [H1 H2]; auto].
    + split; [intros [H _]; split; [exact H|discriminate]|tauto].
  - apply value_atb_iff. intros c. destruct (c_val c) as [[n|s|b]|]; try (split; [intros _ ? X; discriminate|reflexivity]).
    split; [intros H s' E; injection E as <-; lia|intros H; specialize (H s eq_refl); lia].
  - rewrite andb_true_iff. destruct (find_ref T vars code) as [r'| |]; (split; [intros [H1 H2]|intros [H1 H2]]); try discriminate.
    + split; [lia|f_equal; lia].
    + injection H2 as ->. lia.
Qed.

Lemma distinctb_iff l : distinctb l = true <-> NoDup l.
Proof.
  induction l as [|k l IH]; cbn [distinctb].
  - split; [constructor|reflexivity].
  - rewrite andb_true_iff, IH, negb_true_iff. assert (X : existsb (same_key k) l = false <-> ~ In k l).
    { rewrite <- not_true_iff_false, existsb_exists. split; intros H N; apply H.
      - exists k. split; [exact N|]. unfold same_key. rewrite Nat.eqb_refl, Z.eqb_refl. reflexivity.
      - destruct N as (k' & N & E). unfold same_key in E. destruct k as [a b], k' as [a' b']. cbn [fst snd] in E.
        assert (a = a') by lia. assert (b = b') by lia. subst. exact N. }
    rewrite X. split; [intros [H1 H2]; constructor; auto|intros H; inversion H; auto].
Qed.

Theorem faithfulb_iff p T vars reqs : faithfulb p T vars reqs = true <-> faithful p T vars reqs.
Proof.
  unfold faithfulb, faithful. rewrite andb_true_iff, distinctb_iff, forallb_forall, Forall_forall.
  split; intros [H1 H2]; split; auto; intros r Hr; apply request_okb_iff; auto.
Qed.

Theorem all_faithful p T subs : forallb (fun q => faithfulb p T (fst q) (snd q)) subs = true ->
  Forall (fun q => faithful p T (fst q) (snd q)) subs.
Proof. intros H. rewrite forallb_forall in H. apply Forall_forall. intros q Hq. apply faithfulb_iff. auto. Qed.
