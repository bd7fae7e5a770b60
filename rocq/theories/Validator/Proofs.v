(** What the validator accepts can be encoded without loss, up to the checks that it does
    not make. *)
From Coq Require Import ZifyBool ZifyNat.
From Verif Require Import Base Bits.Model Num.Float Varcode.Model Varinfo.Model Varinfo.Proofs Varinfo.RangeProofs
  Tables.Model Tables.Spec Tables.AlterProofs Tables.LoadProofs
  Var.Model Var.Spec Interp.Model Interp.Sim Codec.Model Codec.Spec Codec.Proofs Codec.ColumnProofs
  Validator.Model Validator.Spec.
Local Open Scope Z_scope.

Lemma shl1_x86 k : exists v, shl1 X86 k = Ok v.
Proof. unfold shl1. destruct (_ && _); eauto. Qed.

Lemma add_bits_x86 v n o : exists o', add_bits X86 v n o = Ok o'.
Proof. unfold add_bits. destruct (shl1_x86 (Z.of_nat n - 1)) as [m ->]. cbn [bind]. eauto. Qed.

Lemma append_string_loop_x86 : forall fuel n s o, (n <= fuel)%nat -> exists o', append_string_loop X86 fuel n s o = Ok o'.
Proof.
  induction fuel as [|f IH]; intros n s o L; cbn [append_string_loop].
  - replace n with 0%nat by lia. cbn. eauto.
  - destruct (Nat.eqb_spec n 0); [eauto|]. destruct (Nat.leb_spec 8 n); [|apply add_bits_x86].
    assert (P : forall c s, exists o', (o1 <- append_byte X86 c o ;; append_string_loop X86 f (n - 8) s o1) = Ok o').
    { intros c s'. unfold append_byte. destruct (add_bits_x86 (u8 c) 8 o) as [o1 ->]. cbn [bind]. apply IH. lia. }
    destruct s as [|c s]; [apply P|]. destruct (c =? 0); apply P.
Qed.

Lemma append_binary_loop_x86 : forall fuel n s o, (n <= fuel)%nat -> (n <= 8 * length s)%nat ->
  exists o', append_binary_loop X86 fuel n s o = Ok o'.
Proof.
  induction fuel as [|f IH]; intros n s o L B; cbn [append_binary_loop].
  - replace n with 0%nat by lia. cbn. eauto.
  - destruct (Nat.eqb_spec n 0); [eauto|]. destruct s as [|c s]; [cbn in B; lia|]. cbn [length] in B.
    destruct (Nat.leb_spec 8 n); [|apply add_bits_x86].
    unfold append_byte. destruct (add_bits_x86 (u8 c) 8 o) as [o1 ->]. cbn [bind]. apply IH; lia.
Qed.

Lemma put_bitmap_x86 chars : forall o, exists o', put_bitmap X86 chars o = Ok o'.
Proof.
  induction chars as [|c chars IH]; intros o; cbn [put_bitmap]; [eauto|].
  destruct (add_bits_x86 (if c =? 43 then 0 else 1) 1 o) as [o1 ->]. cbn [bind]. apply IH.
Qed.

Lemma append_chars_x86 s n o : exists o', append_chars X86 (s ++ [0]) n o = Ok o'.
Proof.
  unfold append_chars. assert (E : existsb (Z.eqb 0) (s ++ [0]) = true).
  { rewrite existsb_app. cbn. rewrite orb_true_r. reflexivity. }
  rewrite E. cbn [negb andb]. apply append_string_loop_x86. lia.
Qed.

Lemma shl1_strict k v : shl1 Strict k = Ok v -> 0 <= k < 32 /\ v = 2 ^ k.
Proof. unfold shl1. destruct ((0 <=? k) && (k <? 32)) eqn:E; [|discriminate]. intros H. injection H as <-. lia. Qed.

Lemma shl1_up k v : shl1 Strict k = Ok v -> shl1 X86 k = Ok v.
Proof. unfold shl1. destruct (_ && _); [auto|discriminate]. Qed.

Lemma encode_binary_range i d n : encode_binary i d = Ok n -> 0 <= n < 2 ^ 32 /\ vi_bit_len i <> 0.
Proof.
  unfold encode_binary. destruct (Z.eqb_spec (vi_bit_len i) 0); [discriminate|]. cbv zeta. intros H. inv_bind H.
  destruct (flt a fzero); [discriminate|]. unfold f_to_unsigned, f_to_Z_range in Hk.
  destruct (BinarySingleNaN.is_finite a); [|discriminate]. cbv zeta in Hk.
  destruct ((0 <=? _) && _) eqn:E; [|discriminate]. injection Hk as <-. lia.
Qed.

Lemma check_fits_number i c : check_fits Strict false i c = Ok tt -> is_numeric (vi_type i) = true -> isset c = true ->
  exists d n, enqd c = Ok d /\ encode_binary i d = Ok n /\ 0 <= n < 2 ^ vi_bit_len i /\ 1 <= vi_bit_len i <= 32.
Proof.
  unfold check_fits. intros H N S. destruct (negb (c_code c =? vi_code i)); [discriminate|]. rewrite S in H. cbn [negb] in H.
  assert (G : (d <- enqd c ;; encoded <- encode_binary i d ;; limit <- shl1 Strict (vi_bit_len i) ;;
     if limit <=? encoded then Err EConsistency else Ok tt) = Ok tt) by (destruct (vi_type i); try discriminate; exact H).
  clear H. inv_bind G. rename a into d. inv_bind Hk. rename a into n. inv_bind Hk0. apply shl1_strict in Hb1 as [R ->].
  destruct (Z.leb_spec (2 ^ vi_bit_len i) n); [discriminate|]. apply encode_binary_range in Hb0 as K.
  exists d, n. repeat split; auto; lia.
Qed.

Lemma check_fits_code p cx i c : check_fits p cx i c = Ok tt -> c_code c = vi_code i.
Proof. unfold check_fits. destruct (Z.eqb_spec (c_code c) (vi_code i)); [auto|discriminate]. Qed.

Lemma whole_fits i c : check_fits Strict false i c = Ok tt -> whole i c = true.
Proof.
  intros H. unfold whole. destruct (isset c) eqn:S; [|reflexivity]. destruct (is_numeric (vi_type i)) eqn:N; [|reflexivity].
  destruct (check_fits_number _ _ H N S) as (d & n & -> & E & R1 & R2). cbn [bind negb andb orb]. rewrite E. lia.
Qed.

Lemma number_append i c out : check_fits Strict false i c = Ok tt -> is_numeric (vi_type i) = true ->
  exists out', append_var X86 i c out = Ok out'.
Proof.
  intros H N. unfold append_var. destruct (isset c) eqn:S; cbn [negb]; [|apply add_bits_x86].
  destruct (check_fits_number _ _ H N S) as (d & n & -> & E & _). cbn [bind]. rewrite E. cbn [bind].
  destruct (vi_type i); try discriminate; apply add_bits_x86.
Qed.

Lemma fits_append i c out : check_fits Strict false i c = Ok tt -> sound_cell c -> kind_ok i c = true ->
  exists out', append_var X86 i c out = Ok out'.
Proof.
  intros H So K. destruct (is_numeric (vi_type i)) eqn:N; [apply number_append; auto|].
  unfold append_var. destruct (isset c) eqn:S; cbn [negb]; [|apply add_bits_x86].
  unfold kind_ok in K. rewrite S in K. cbn [negb orb] in K. unfold isset in S. unfold sound_cell in So. unfold enqc.
  destruct (c_val c) as [v|]; [|discriminate]. unfold value_ok in So.
  destruct (vi_type i) eqn:Ti; try discriminate; destruct (vi_type (c_info c)) eqn:Tc; try discriminate;
    destruct v as [n|s|b]; try contradiction; cbn [bind].
  - apply append_chars_x86.
  - apply append_binary_loop_x86; [lia|]. unfold bit_len_nat. unfold ilen in So. rewrite So. apply Z.leb_le in K.
    pose proof (Z.div_mod (vi_bit_len i + 7) 8). pose proof (Z.mod_pos_bound (vi_bit_len i + 7) 8). lia.
Qed.

(** ** From the careful validator to the exact encoder *)
Section Careful.
Context (o : options) (T : tables) (vars : list var).
Context (Sound : Forall sound_var vars).

Definition tie (k : check) (e : enc) : Prop := k_pos k = e_pos e /\ k_lt k = e_lt e.

Lemma sound_at n v : get_var vars n = Ok v -> sound_cell (v_cell v) /\ Forall sound_cell (v_attrs v).
Proof.
  intros H. apply get_var_nth in H. apply nth_error_In in H. eapply Forall_forall in Sound; eauto.
  apply Forall_cons_iff in Sound. exact Sound.
Qed.

Lemma sound_attr n v code a : get_var vars n = Ok v -> var_enqa v code = Some a -> sound_cell a.
Proof.
  intros H E. apply sound_at in H as [_ H]. unfold var_enqa in E. eapply Forall_forall in H; [exact H|].
  eapply enqa_in; eauto.
Qed.

Lemma next_is_ok n f v : get_var vars n = Ok v -> f v = true -> next_is vars n f = Ok tt.
Proof. intros H E. unfold next_is. rewrite H. cbn [bind]. rewrite E. reflexivity. Qed.

Lemma next_is_inv n f x : next_is vars n f = Ok x -> exists v, get_var vars n = Ok v /\ f v = true.
Proof. unfold next_is. intros H. inv_bind H. apply guard_ok in Hk. eauto. Qed.

Ltac no_dec := intros ? ? _ [].
Ltac intro_u I E := intros sa se sa' I E.

Definition none (_ : enc) : list unit := [].
Definition nope (_ : check) (_ : unit) (_ : list unit) : Prop := False.
Definition fine (_ : list unit) : Prop := True.
Definition nothing : visitor unit :=
  mkvisitor (fun _ _ => UB) (fun _ _ _ _ => UB) (fun _ _ => UB) (fun _ _ => UB) (fun _ _ => UB) (fun _ _ => UB)
    (fun _ _ _ => UB) (fun _ _ => UB) (fun _ _ _ => UB) (fun _ _ _ => UB) (fun _ _ _ => UB).

Lemma sim_intro {X} (fA : check -> res (X * check)) (fE : enc -> res (X * enc)) (fD : unit -> res (X * unit)) :
  (forall k e x k', tie k e -> fA k = Ok (x, k') -> exists e', fE e = Ok (x, e') /\ tie k' e') ->
  sim tie none nope fine fA fE fD.
Proof.
  intros H k e x k' I E. destruct (H _ _ _ _ I E) as (e' & E' & I'). exists [], e'. repeat split; auto; try apply I'. intros ? ? _ [].
Qed.
Lemma sim_u_intro (fA : check -> res check) (fE : enc -> res enc) (fD : unit -> res unit) :
  (forall k e k', tie k e -> fA k = Ok k' -> exists e', fE e = Ok e' /\ tie k' e') ->
  sim_u tie none nope fine fA fE fD.
Proof.
  intros H k e k' I E. destruct (H _ _ _ I E) as (e' & E' & I'). exists [], e'. repeat split; auto; try apply I'. intros ? ? _ [].
Qed.

(** What the validator does with the next variable. *)
Lemma k_var_inv cx p i k k' : k_var p cx vars i k = Ok k' ->
  exists v, get_var vars (k_pos k) = Ok v /\ check_fits p cx i (v_cell v) = Ok tt /\ k' = mkcheck (S (k_pos k)) (k_lt k).
Proof.
  unfold k_var, k_next. intros H. inv_bind H. destruct a as [v s1]. inv_bind Hb. apply ok_inj in Hk0. injection Hk0 as <- <-.
  inv_bind Hk. apply ok_inj in Hk0. subst. destruct a0. eauto.
Qed.

Lemma careful_callbacks : callbacks tie none nope fine (careful_validator Strict o T vars) (exact_encoder X86 o T vars) nothing T.
Proof.
  constructor; intros; first [apply sim_intro | apply sim_u_intro]; cbn [careful_validator exact_encoder on_var on_var_af on_factor
    on_bitmap_factor on_significance on_subst on_attr on_raw on_refval on_bitmap on_unknown validator encoder].
  - intros k e k' [P L] E. inv_bind E. apply next_is_inv in Hb as (v & G & K). apply k_var_inv in Hk as (v' & G' & F & ->).
    rewrite G in G'. apply ok_inj in G'. subst v'. rewrite <- P. rewrite (next_is_ok _ _ _ G (whole_fits _ _ F)). cbn [bind].
    unfold e_var, e_next. rewrite <- P, G. cbn [bind e_out].
    destruct (fits_append i (v_cell v) (e_out e) F (proj1 (sound_at _ _ G)) K) as [o' ->]. cbn. eexists. split; [reflexivity|]. split; cbn; auto.
  - intros k e k' [P L] E. inv_bind E. apply next_is_inv in Hb as (v & G & K). apply andb_prop in K as [K A].
    unfold k_var_af in Hk. apply k_var_inv in Hk as (v' & G' & F & ->).
    rewrite G in G'. apply ok_inj in G'. subst v'. rewrite <- P.
    rewrite (next_is_ok _ (fun v => whole i (v_cell v) && af_whole b g v) _ G) by (rewrite (whole_fits _ _ F); exact A). cbn [bind].
    unfold e_var_af, e_next. rewrite <- P, G. cbn [bind e_out].
    assert (AF : exists e2, e_af X86 b g v {| e_pos := S (k_pos k); e_out := e_out e; e_lt := e_lt e |} = Ok e2 /\
      e_pos e2 = S (k_pos k) /\ e_lt e2 = e_lt e).
    { unfold e_af, get_attribute. unfold af_whole in A. destruct (af_code g) as [[code|]| |]; try discriminate; cbn [bind].
      - destruct (var_enqa v code) as [a1|].
        + destruct (isset a1); cbn [negb orb] in A.
          * destruct (enqi a1) as [n| |]; try discriminate. cbn [bind].
            destruct (add_bits_x86 n (Z.to_nat b) (e_out e)) as [o' E']. unfold e_put. cbn [e_out]. rewrite E'. cbn [bind]. eexists. split; [reflexivity|]. auto.
          * destruct (add_bits_x86 (2 ^ 32 - 1) (Z.to_nat b) (e_out e)) as [o' E']. unfold e_put, append_missing. cbn [e_out]. rewrite E'. cbn [bind]. eexists. split; [reflexivity|]. auto.
        + destruct (add_bits_x86 (2 ^ 32 - 1) (Z.to_nat b) (e_out e)) as [o' E']. unfold e_put, append_missing. cbn [e_out]. rewrite E'. cbn [bind]. eexists. split; [reflexivity|]. auto.
      - destruct (add_bits_x86 (2 ^ 32 - 1) (Z.to_nat b) (e_out e)) as [o' E']. unfold e_put, append_missing. cbn [e_out]. rewrite E'. cbn [bind]. eexists. split; [reflexivity|]. auto. }
    destruct AF as (e2 & -> & P2 & L2). cbn [bind].
    destruct (fits_append i (v_cell v) (e_out e2) F (proj1 (sound_at _ _ G)) K) as [o' ->]. cbn. eexists. split; [reflexivity|]. split; cbn; congruence.
  - intros k e x k' [P L] E. inv_bind E. apply next_is_inv in Hb as (v & G & K). unfold k_factor, k_next in Hk.
    rewrite G in Hk. cbn [bind] in Hk. inv_bind Hk. rename Hb into F. destruct a0. inv_bind Hk0. rename Hb into N. apply ok_inj in Hk. injection Hk as <- <-.
    rewrite <- P. rewrite (next_is_ok _ _ _ G (whole_fits _ _ F)). cbn [bind].
    unfold e_factor, e_next. rewrite <- P, G. cbn [bind e_out].
    destruct (fits_append i (v_cell v) (e_out e) F (proj1 (sound_at _ _ G)) K) as [o' ->]. unfold e_put. cbn [bind]. rewrite N. cbn. eexists. split; [reflexivity|]. split; cbn; auto.
  - intros k e x k' [P L] E. inv_bind E. apply next_is_inv in Hb as (v & G & K). apply andb_prop in K as [N W]. unfold k_bitmap_factor in Hk.
    rewrite G in Hk. cbn [bind] in Hk. cbv zeta in Hk. inv_bind Hk. rename Hb into C. inv_bind Hk0. destruct a1. rename Hb into F. apply ok_inj in Hk. injection Hk as <- <-.
    rewrite <- P. rewrite (next_is_ok _ (fun v => whole i (mkcell i (Some (VInt (vi_len (c_info (v_cell v))))))) _ G W). cbn [bind].
    unfold e_bitmap_factor. rewrite <- P, G. cbn [bind]. cbv zeta. rewrite C. cbn [bind].
    destruct (number_append i a0 (e_out e) F N) as [o' ->]. cbn. eexists. split; [reflexivity|]. split; cbn; auto.
  - intros k e x k' [P L] E. inv_bind E. apply next_is_inv in Hb as (v & G & K). unfold k_significance, k_next in Hk.
    rewrite G in Hk. cbn [bind] in Hk. inv_bind Hk. rename Hb into F. destruct a0. inv_bind Hk0. rename Hb into N. apply ok_inj in Hk. injection Hk as <- <-.
    rewrite <- P. rewrite (next_is_ok _ _ _ G (whole_fits _ _ F)). cbn [bind].
    unfold e_significance, e_next. rewrite <- P, G. cbn [bind e_out].
    destruct (fits_append i (v_cell v) (e_out e) F (proj1 (sound_at _ _ G)) K) as [o' ->]. unfold e_put. cbn [bind]. rewrite N. cbn. eexists. split; [reflexivity|]. split; cbn; auto.
  - intros k e k' [P L] E. inv_bind E. apply next_is_inv in Hb as (v & G & K). unfold k_subst in Hk.
    pose proof (get_var_nth _ _ _ G) as N. rewrite N in Hk. unfold k_attr in Hk. rewrite G in Hk. cbn [bind] in Hk.
    change (vi_code (c_info (v_cell v))) with (c_code (v_cell v)) in *.
    unfold e_subst, e_attr_code. rewrite N. cbv zeta. rewrite G. cbn [bind]. change (vi_code (c_info (v_cell v))) with (c_code (v_cell v)).
    destruct (var_enqa v (c_code (v_cell v))) as [a1|] eqn:A.
    + inv_bind Hk. destruct a0. apply ok_inj in Hk0. subst.
      rewrite (next_is_ok _ (fun v => match var_enqa v (c_code (v_cell v)) with Some a => whole (c_info (v_cell v)) a | None => true end) _ G)
        by (rewrite A; apply whole_fits; auto). cbn [bind].
      destruct (fits_append _ a1 (e_out e) Hb (sound_attr _ _ _ _ G A) K) as [o' ->]. cbn. eexists. split; [reflexivity|]. split; cbn; auto.
    + apply ok_inj in Hk. subst.
      rewrite (next_is_ok _ (fun v => match var_enqa v (c_code (v_cell v)) with Some a => whole (c_info (v_cell v)) a | None => true end) _ G)
        by (rewrite A; reflexivity). cbn [bind]. unfold e_put, append_missing.
      destruct (add_bits_x86 (2 ^ 32 - 1) (bit_len_nat (c_info (v_cell v))) (e_out e)) as [o' ->]. cbn. eexists. split; [reflexivity|]. split; cbn; auto.
  - intros k e k' [P L] E. inv_bind E. apply next_is_inv in Hb as (v & G & K). unfold k_attr in Hk. rewrite G in Hk. cbn [bind] in Hk.
    unfold e_attr, e_attr_code. rewrite G. cbn [bind].
    destruct (var_enqa v (vi_code i)) as [a1|] eqn:A.
    + inv_bind Hk. destruct a0. apply ok_inj in Hk0. subst.
      rewrite (next_is_ok _ (fun v => match var_enqa v (vi_code i) with Some a => whole i a | None => true end) _ G)
        by (rewrite A; apply whole_fits; auto). cbn [bind].
      destruct (fits_append _ a1 (e_out e) Hb (sound_attr _ _ _ _ G A) K) as [o' ->]. cbn. eexists. split; [reflexivity|]. split; cbn; auto.
    + apply ok_inj in Hk. subst.
      rewrite (next_is_ok _ (fun v => match var_enqa v (vi_code i) with Some a => whole i a | None => true end) _ G)
        by (rewrite A; reflexivity). cbn [bind]. unfold e_put, append_missing.
      destruct (add_bits_x86 (2 ^ 32 - 1) (bit_len_nat i) (e_out e)) as [o' ->]. cbn. eexists. split; [reflexivity|]. split; cbn; auto.
  - intros k e k' [P L] E. inv_bind E. apply next_is_inv in Hb as (v & G & K). unfold k_raw, k_next in Hk. rewrite G in Hk. cbn [bind] in Hk.
    destruct (negb (c_code (v_cell v) =? c)); [discriminate|]. apply ok_inj in Hk. subst.
    unfold e_raw, e_next. rewrite <- P, G. cbn [bind e_out].
    assert (B : exists s, (if isset (v_cell v) then enqc (v_cell v) else Ok [0]) = Ok (s ++ [0])).
    { pose proof (proj1 (sound_at _ _ G)) as So. unfold sound_cell in So. unfold isset, enqc. destruct (c_val (v_cell v)) as [w|]; [|exists []; reflexivity].
      unfold value_ok in So. destruct (vi_type (c_info (v_cell v))); try discriminate. destruct w; try contradiction. eauto. }
    destruct B as [s ->]. cbn [bind].
    destruct (append_chars_x86 s (Z.to_nat (var_y c * 8)) (e_out e)) as [o' ->]. cbn. eexists. split; [reflexivity|]. split; cbn; auto.
  - intros k e x k' [P L] E. unfold k_refval in E. inv_bind E. rename a into ref. unfold e_refval. rewrite Hb. cbn [bind]. inv_bind Hk.
    rename a into nb. destruct (b <? nb + 1) eqn:B; [discriminate|]. apply ok_inj in Hk0. injection Hk0 as <- <-.
    assert (Q : exists en, (if ref <? 0 then m <- int_checked (- ref) ;; w <- bit_width m ;; sign <- shl1 X86 (b - 1) ;; Ok (Z.lor m sign, w)
      else w <- bit_width ref ;; Ok (ref, w)) = Ok (en, nb)).
    { destruct (ref <? 0).
      - inv_bind Hb0. rewrite Hb1. cbn [bind]. inv_bind Hk. rewrite Hb0. cbn [bind]. inv_bind Hk0. apply shl1_up in Hb2. rewrite Hb2. cbn [bind].
        apply ok_inj in Hk. subst. eauto.
      - rewrite Hb0. cbn [bind]. eauto. }
    destruct Q as [en ->]. cbn [bind]. rewrite B. destruct (add_bits_x86 en (Z.to_nat b) (e_out e)) as [o' ->]. cbn. eexists. split; [reflexivity|]. split; cbn; auto.
  - intros k e x k' [P L] E. inv_bind E. apply next_is_inv in Hb as (v & G & K). apply Z.eqb_eq in K. unfold k_bitmap, k_next in Hk. rewrite G in Hk. cbn [bind] in Hk.
    unfold e_bitmap, e_next. rewrite <- P, G. cbn [bind e_out e_pos]. destruct (negb (var_f (c_code (v_cell v)) =? 2)); [discriminate|].
    rewrite K in *. rewrite Z.eqb_refl. cbn [negb]. inv_bind Hk. rewrite Hb. cbn [bind]. apply ok_inj in Hk0. injection Hk0 as <- <-.
    destruct (put_bitmap_x86 a0 (e_out e)) as [o' ->]. cbn. eexists. split; [reflexivity|]. split; cbn; auto.
  - intros k e x k' [P L] E. unfold k_unknown in E. unfold e_unknown. rewrite <- L. inv_bind E. destruct a as [i lt]. rewrite Hb. cbn [bind].
    apply ok_inj in Hk. injection Hk as <- <-. eexists. split; [reflexivity|]. split; cbn; auto.
Qed.

Lemma careful_exact fuel ops lt out st k :
  run (careful_validator Strict o T vars) T fuel ops (ist_init, mkcheck 0 lt) = Ok (st, k) ->
  exists e, run (exact_encoder X86 o T vars) T fuel ops (ist_init, mkenc 0 out lt) = Ok (st, e) /\ k_pos k = e_pos e /\ k_lt k = e_lt e.
Proof.
  intros R. destruct (run_sim tie none nope fine (fun _ _ _ => I) _ _ _ T careful_callbacks fuel ops ist_init ist_ok_init
    (mkcheck 0 lt) (mkenc 0 out lt) st k (conj eq_refl eq_refl) R) as (bs & e & E & H & _). exists e. split; auto.
Qed.
End Careful.

(** ** The exact encoder is the encoder *)
Section Same.
Context (p : shift_policy) (o : options) (T : tables) (vars : list var).

Lemma same_callbacks : callbacks (@eq enc) none (fun _ _ _ => False) fine (exact_encoder p o T vars) (encoder p o T vars) nothing T.
Proof.
  assert (U : forall (f g : enc -> res enc) h, (forall s s', f s = Ok s' -> g s = Ok s') ->
    sim_u (@eq enc) none (fun _ (_ : unit) _ => False) fine f g h).
  { intros f g h H a b a' <- E. exists [], a'. repeat split; auto. intros ? ? _ []. }
  assert (W : forall X (f g : enc -> res (X * enc)) h, (forall s x s', f s = Ok (x, s') -> g s = Ok (x, s')) ->
    sim (@eq enc) none (fun _ (_ : unit) _ => False) fine f g h).
  { intros X f g h H a b x a' <- E. exists [], a'. repeat split; auto. intros ? ? _ []. }
  constructor; intros; first [apply U | apply W]; intros; cbn [exact_encoder on_var on_var_af on_factor
    on_bitmap_factor on_significance on_subst on_attr on_raw on_refval on_bitmap on_unknown] in *;
  first [assumption | match goal with H : _ = Ok _ |- _ => inv_bind H; exact Hk end].
Qed.

Lemma exact_same fuel ops out lt x :
  run (exact_encoder p o T vars) T fuel ops (ist_init, mkenc 0 out lt) = Ok x ->
  run (encoder p o T vars) T fuel ops (ist_init, mkenc 0 out lt) = Ok x.
Proof.
  destruct x as [st e]. intros R. destruct (run_sim _ _ _ _ (fun _ _ _ => I) _ _ _ T same_callbacks fuel ops ist_init ist_ok_init
    _ (mkenc 0 out lt) st e eq_refl R) as (bs & e' & E & <- & _). exact E.
Qed.
End Same.

(** ** Simple templates *)
Section Simple.
Context (p : shift_policy) (o : options) (T : tables) (vars : list var).
Context (Types : table_types T vars).

Let V := validator p o false T vars.
Let C := careful_validator p o T vars.

Definition quiet (st : istate) : Prop := is_afbits st = 0 /\ is_pending st = 0 /\ is_cur st = None.

Definition from_table (i : varinfo) : Prop := exists e, In e (tb_b T) /\ be_code e = vi_code i /\
  (is_numeric (vi_type i) = true \/ vi_type (be_info e) = vi_type i).

Lemma query_from c i : query (tb_b T) c = Ok i -> from_table i.
Proof.
  unfold query. intros H. inv_bind H. destruct a as [n|]; [|discriminate]. inv_bind Hk. apply ok_inj in Hk0. subst.
  unfold entry_at in Hb0. destruct (nth_error (tb_b T) n) as [e|] eqn:N; [|discriminate]. apply ok_inj in Hb0. subst.
  apply nth_error_In in N. exists a. auto.
Qed.

Lemma expected_from r i : expected (tb_b T) r = Ok i -> from_table i.
Proof.
  unfold expected. destruct (List.find _ (tb_b T)) as [e|] eqn:F; [|discriminate]. apply find_some in F as [F _]. cbv zeta.
  destruct (_ && _); intros H.
  - apply ok_inj in H. subst. exists e. auto.
  - unfold alter_checked, alter_info in H. destruct (is_numeric _ && _); [discriminate|]. inv_bind H.
    apply compute_range_fields in Hk as (F1 & F2 & _). exists e. unfold be_code. split; [auto|]. split; [congruence|].
    rewrite F2. destruct (vi_type (be_info e)); auto; destruct (r_scale r =? 0); auto.
Qed.

Lemma get_varinfo_from st c i : get_varinfo (tb_b T) st c = Ok i -> from_table i.
Proof.
  unfold get_varinfo. intros H. inv_bind H. destruct (_ && _).
  - apply ok_inj in Hk. subst. eapply query_from; eauto.
  - cbv zeta in Hk. inv_bind Hk. destruct a0 as [[? ?] ?]. eapply expected_from; eauto.
Qed.

Lemma kind_from i n v : from_table i -> get_var vars n = Ok v -> c_code (v_cell v) = vi_code i -> kind_ok i (v_cell v) = true.
Proof.
  intros (e & In1 & C1 & T1) G Hc. destruct (Types e In1) as [NB TY]. apply get_var_nth in G. apply nth_error_In in G.
  unfold kind_ok. destruct (isset (v_cell v)); [|reflexivity]. cbn [negb orb].
  destruct T1 as [T1|T1]; [destruct (vi_type i); try discriminate; destruct (vi_type (c_info (v_cell v))); reflexivity|].
  rewrite T1 in *. destruct (vi_type i).
  - destruct (vi_type (c_info (v_cell v))); reflexivity.
  - destruct (vi_type (c_info (v_cell v))); reflexivity.
  - rewrite (TY eq_refl v G (eq_trans Hc (eq_sym C1))). reflexivity.
  - congruence.
Qed.

Lemma var_up i k k' : from_table i -> on_var V i k = Ok k' -> on_var C i k = Ok k'.
Proof.
  intros Fi E. pose proof E as E0. cbn [on_var V validator] in E. apply k_var_inv in E as (v & G & F & _).
  cbn [on_var C careful_validator]. rewrite (next_is_ok _ _ _ _ G); [exact E0|]. eapply kind_from; eauto. eapply check_fits_code; eauto.
Qed.

Lemma factor_up i k x : from_table i -> on_factor V i k = Ok x -> on_factor C i k = Ok x.
Proof.
  intros Fi E. pose proof E as E0. cbn [on_factor V validator] in E. unfold k_factor, k_next in E. inv_bind E. destruct a as [v s1].
  inv_bind Hb. apply ok_inj in Hk0. injection Hk0 as -> <-. inv_bind Hk. destruct a.
  cbn [on_factor C careful_validator]. rewrite (next_is_ok _ _ _ _ Hb0); [exact E0|]. eapply kind_from; eauto. eapply check_fits_code; eauto.
Qed.

Lemma b_variable_up c st k st' k' : quiet st -> b_variable V T c (st, k) = Ok (st', k') ->
  b_variable C T c (st, k) = Ok (st', k') /\ quiet st'.
Proof.
  intros (Q1 & Q2 & Q3) H. unfold b_variable in *. destruct (negb (is_refbits st =? 0)).
  - split; [exact H|]. inv_bind H. destruct a as [r s']. apply ok_inj in Hk. injection Hk as <- <-. split; auto.
  - inv_bind H. rewrite Hb. cbn [bind]. apply get_varinfo_from in Hb. rewrite Q3, Q1 in *. rewrite andb_false_r in *. cbn [Z.eqb negb] in *.
    inv_bind Hk. apply ok_inj in Hk0. injection Hk0 as <- <-. rewrite (var_up _ _ _ Hb Hb0). cbn [bind]. split; [reflexivity|split; auto].
Qed.

Lemma c_modifier_up c next st k next' st' k' : quiet st -> simple_op c = true -> var_f c = 2 ->
  c_modifier V T c next (st, k) = Ok (next', st', k') ->
  c_modifier C T c next (st, k) = Ok (next', st', k') /\ next' = next /\ quiet st'.
Proof.
  intros Q S F H. unfold simple_op in S. rewrite F in S. cbn [Z.eqb negb orb existsb] in S.
  unfold c_modifier in *. cbv zeta in *.
  destruct (var_x c =? 1); [split; auto; apply ok_inj in H; injection H as <- <- <-; auto|].
  destruct (var_x c =? 2); [split; auto; apply ok_inj in H; injection H as <- <- <-; auto|].
  destruct (var_x c =? 3); [split; auto; apply ok_inj in H; injection H as <- <- <-; auto|].
  destruct (var_x c =? 4); [discriminate|]. destruct (var_x c =? 5); [discriminate|]. destruct (var_x c =? 6); [discriminate|].
  destruct (var_x c =? 7); [split; auto; apply ok_inj in H; injection H as <- <- <-; auto|].
  destruct (var_x c =? 8); [split; auto; apply ok_inj in H; injection H as <- <- <-; auto|].
  destruct (var_x c =? 22); [discriminate|]. destruct (var_x c =? 23); [discriminate|]. destruct (var_x c =? 37); [discriminate|].
  split; auto; apply ok_inj in H; injection H as <- <- <-; auto.
Qed.

Lemma repeat_up (f g : istate * check -> res (istate * check)) :
  (forall st k st' k', quiet st -> f (st, k) = Ok (st', k') -> g (st, k) = Ok (st', k') /\ quiet st') ->
  forall n st k st' k', quiet st -> repeat_m n f (st, k) = Ok (st', k') -> repeat_m n g (st, k) = Ok (st', k') /\ quiet st'.
Proof.
  intros H. induction n as [|n IH]; intros st k st' k' Q E; cbn [repeat_m] in *.
  - apply ok_inj in E. injection E as <- <-. auto.
  - inv_bind E. destruct a as [st1 k1]. apply H in Hb as [Hb Q1]; auto. rewrite Hb. cbn [bind]. apply IH; auto.
Qed.

Lemma forallb_firstn {A} (f : A -> bool) n l : forallb f l = true -> forallb f (firstn n l) = true.
Proof. rewrite !forallb_forall. intros H x Hx. apply H. rewrite <- (firstn_skipn n l). apply in_or_app. auto. Qed.
Lemma forallb_skipn {A} (f : A -> bool) n l : forallb f l = true -> forallb f (skipn n l) = true.
Proof. rewrite !forallb_forall. intros H x Hx. apply H. rewrite <- (firstn_skipn n l). apply in_or_app. auto. Qed.

Lemma delayed_simple c rest d rest1 : delayed_code c rest = (d, rest1) -> forallb simple_op rest = true -> forallb simple_op rest1 = true.
Proof.
  unfold delayed_code. destruct (var_y c =? 0); [|intros H; injection H as <- <-; auto].
  destruct rest as [|n r]; [intros H; injection H as <- <-; auto|]. destruct (_ && _); intros H; injection H as <- <-; auto.
  cbn [forallb]. intros H. apply andb_prop in H. apply H.
Qed.

Lemma simple_run : (forall d body, dexpand (tb_d T) d = Ok body -> forallb simple_op body = true) ->
  forall fuel ops st k st' k', forallb simple_op ops = true -> quiet st ->
  run V T fuel ops (st, k) = Ok (st', k') -> run C T fuel ops (st, k) = Ok (st', k') /\ quiet st'.
Proof.
  intros HD. induction fuel as [|f IH]; intros ops st k st' k' S Q E; cbn [run] in *; [discriminate|].
  destruct ops as [|cur rest]; [apply ok_inj in E; injection E as <- <-; auto|]. cbv zeta in *.
  cbn [forallb] in S. apply andb_prop in S as [S1 S2].
  destruct (var_f cur =? 0).
  { inv_bind E. destruct a as [st1 k1]. apply b_variable_up in Hb as [Hb Q1]; auto. rewrite Hb. cbn [bind]. apply IH; auto. }
  destruct (var_f cur =? 1).
  { destruct (delayed_code cur rest) as [delayed rest1] eqn:D. pose proof (delayed_simple _ _ _ _ D S2) as S3.
    destruct (Nat.ltb (length rest1) (Z.to_nat (var_x cur))); [discriminate|]. cbn [fst] in *.
    pose proof Q as (Q1 & Q2 & Q3). rewrite Q2 in *. cbn [Z.eqb] in *.
    inv_bind E. destruct a as [st1 k1].
    assert (R : r_replication C T (run C T f (firstn (Z.to_nat (var_x cur)) rest1)) cur delayed (st, k) = Ok (st1, k1) /\ quiet st1).
    { unfold r_replication in *. inv_bind Hb. destruct a as [n k2].
      assert (N : (if var_y cur =? 0 then info <- query (tb_b T) delayed ;; on_factor C info k else Ok (var_y cur, k)) = Ok (n, k2)).
      { destruct (var_y cur =? 0); [|exact Hb0]. inv_bind Hb0. rewrite Hb. cbn [bind]. apply factor_up; auto. eapply query_from; eauto. }
      rewrite N. cbn [bind]. eapply repeat_up; [|exact Q|exact Hk0]. intros. apply IH; auto. apply forallb_firstn. auto. }
    destruct R as [-> Q4]. cbn [bind]. apply IH; auto. apply forallb_skipn. auto. }
  destruct (Z.eqb_spec (var_f cur) 2) as [F|F].
  { inv_bind E. destruct a as [[rest' st1] k1]. apply c_modifier_up in Hb as (Hb & -> & Q1); auto. rewrite Hb. cbn [bind]. apply IH; auto. }
  inv_bind E. rewrite Hb. cbn [bind]. inv_bind Hk. destruct a0 as [st1 k1]. apply IH in Hb0 as [Hb0 Q1]; eauto. rewrite Hb0. cbn [bind]. apply IH; auto.
Qed.

Lemma simple_validate fuel ops lt st k : simple_template T ops -> validate p o false T vars fuel ops lt = Ok (st, k) ->
  run C T fuel ops (ist_init, mkcheck 0 lt) = Ok (st, k).
Proof. intros [S HD] H. apply (simple_run HD) in H; [apply H|auto|]. split; auto. Qed.
End Simple.
