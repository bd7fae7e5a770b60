(** Visitors that do the same on a part of their state run the same. *)
From Verif Require Import Base Varcode.Model Varinfo.Model Tables.Model Tables.Spec Interp.Model.
Local Open Scope Z_scope.

Definition rmap {A B} (f : A -> B) (m : res A) : res B := a <- m ;; Ok (f a).

Lemma rmap_bind {A B C D} (f : C -> D) (g : A -> B) (m : res A) (h : A -> res C) (m' : res B) (h' : B -> res D) :
  rmap g m = m' -> (forall a, rmap f (h a) = h' (g a)) -> rmap f (a <- m ;; h a) = (b <- m' ;; h' b).
Proof. intros <- H. destruct m as [a| |]; cbn [rmap bind]; auto. Qed.

Section Hom.
Context {SW SV : Type} (W : visitor SW) (V : visitor SV) (p : SW -> SV) (T : tables).

Definition hom1 (f : SW -> res SW) (g : SV -> res SV) : Prop := forall w, rmap p (f w) = g (p w).
Definition hom2 {X} (f : SW -> res (X * SW)) (g : SV -> res (X * SV)) : Prop :=
  forall w, rmap (fun xw => (fst xw, p (snd xw))) (f w) = g (p w).

Record hom : Prop := {
  hm_var i : hom1 (on_var W i) (on_var V i);
  hm_var_af b g i : hom1 (on_var_af W b g i) (on_var_af V b g i);
  hm_factor i : hom2 (on_factor W i) (on_factor V i);
  hm_bitmap_factor i : hom2 (on_bitmap_factor W i) (on_bitmap_factor V i);
  hm_significance i : hom2 (on_significance W i) (on_significance V i);
  hm_subst pos : hom1 (on_subst W pos) (on_subst V pos);
  hm_attr i pos : hom1 (on_attr W i pos) (on_attr V i pos);
  hm_raw c : hom1 (on_raw W c) (on_raw V c);
  hm_refval b c : hom2 (on_refval W b c) (on_refval V b c);
  hm_bitmap c n : hom2 (on_bitmap W c n) (on_bitmap V c n);
  hm_unknown c b : hom2 (on_unknown W c b) (on_unknown V c b) }.

Context (H : hom).
Definition under (x : istate * SW) : istate * SV := (fst x, p (snd x)).
Definition under3 (x : list Z * istate * SW) : list Z * istate * SV := (fst x, p (snd x)).
Definition under2 {X} (x : X * SW) : X * SV := (fst x, p (snd x)).

Lemma b_variable_hom c x : rmap under (b_variable W T c x) = b_variable V T c (under x).
Proof.
  destruct x as [st w]. unfold under at 2. cbn [fst snd]. unfold b_variable. destruct (negb (is_refbits st =? 0)).
  - apply rmap_bind with (g := under2). { apply (hm_refval H). } intros [r w']. reflexivity.
  - destruct (get_varinfo (tb_b T) st c) as [i| |]; cbn [bind]; try reflexivity.
    destruct ((var_f c =? 0) && (var_x c =? 33) && match is_cur st with Some _ => true | None => false end).
    + destruct (bitmaps_next st) as [[pos st']| |]; cbn [bind]; try reflexivity.
      apply rmap_bind with (g := p). { apply (hm_attr H). } intros w'. reflexivity.
    + destruct (negb (is_afbits st =? 0)).
      * apply rmap_bind with (g := p). { apply (hm_var_af H). } intros w'. reflexivity.
      * apply rmap_bind with (g := p). { apply (hm_var H). } intros w'. reflexivity.
Qed.

Lemma c_modifier_hom c next x : rmap under3 (c_modifier W T c next x) = c_modifier V T c next (under x).
Proof.
  destruct x as [st w]. unfold under. cbn [fst snd]. unfold c_modifier. cbv zeta.
  destruct (var_x c =? 1); [reflexivity|]. destruct (var_x c =? 2); [reflexivity|]. destruct (var_x c =? 3); [reflexivity|].
  destruct (var_x c =? 4).
  { destruct (negb (var_y c =? 0) && negb (is_afbits st =? 0)); [reflexivity|]. destruct (32 <? var_y c); [reflexivity|].
    destruct (var_y c =? 0); [reflexivity|]. destruct next as [|a next]; [reflexivity|]. cbn [pop_left bind].
    destruct (negb (a =? var_B31021)); [reflexivity|]. destruct (query (tb_b T) var_B31021) as [i| |]; cbn [bind]; try reflexivity.
    apply rmap_bind with (g := under2). { apply (hm_significance H). } intros [g w']. reflexivity. }
  destruct (var_x c =? 5). { apply rmap_bind with (g := p). { apply (hm_raw H). } intros w'. reflexivity. }
  destruct (var_x c =? 6).
  { destruct next as [|a next]; [reflexivity|]. cbn [pop_left bind]. destruct (var_y c =? 0); [reflexivity|].
    destruct (contains (tb_b T) a) as [known| |]; cbn [bind]; try reflexivity.
    match goal with |- rmap _ (bind ?m _) = _ => destruct m as [oi| |] end; cbn [bind]; try reflexivity.
    apply rmap_bind with (g := under2).
    - destruct oi; [reflexivity|]. apply (hm_unknown H).
    - intros [i w']. cbn [under2 fst snd]. apply rmap_bind with (g := p). { apply (hm_var H). } intros w2. reflexivity. }
  destruct (var_x c =? 7); [reflexivity|]. destruct (var_x c =? 8); [reflexivity|].
  destruct (var_x c =? 22). { destruct (negb (var_y c =? 0)); reflexivity. }
  destruct (var_x c =? 23).
  { destruct (var_y c =? 0); [reflexivity|]. destruct (var_y c =? 255); [|reflexivity].
    destruct (bitmaps_next st) as [[pos st']| |]; cbn [bind]; try reflexivity.
    apply rmap_bind with (g := p). { apply (hm_subst H). } intros w'. reflexivity. }
  destruct (var_x c =? 37). { destruct (var_y c =? 0); [reflexivity|]. destruct (var_y c =? 255); reflexivity. }
  reflexivity.
Qed.

Lemma r_bitmap_hom c d ops x : rmap under (r_bitmap W T c d ops x) = r_bitmap V T c d ops (under x).
Proof.
  destruct x as [st w]. unfold under at 2. cbn [fst snd]. unfold r_bitmap.
  destruct (negb (var_x c =? 1)); [reflexivity|]. destruct (negb (hd 0 ops =? var_B31031)); [reflexivity|].
  apply rmap_bind with (g := under2).
  - destruct (var_y c =? 0); [|reflexivity]. destruct (query (tb_b T) d) as [i| |]; cbn [bind]; try reflexivity.
    apply (hm_bitmap_factor H).
  - intros [n w1]. cbn [under2 fst snd]. apply rmap_bind with (g := under2). { apply (hm_bitmap H). }
    intros [[codes bits] w2]. cbn [under2 fst snd]. destruct (bitmaps_define st codes bits) as [st'| |]; reflexivity.
Qed.

Lemma repeat_hom f g : (forall x, rmap under (f x) = g (under x)) ->
  forall n x, rmap under (repeat_m n f x) = repeat_m n g (under x).
Proof.
  intros F. induction n as [|n IH]; intros x; cbn [repeat_m]; [reflexivity|].
  apply rmap_bind with (g := under); auto.
Qed.

Theorem run_hom : forall k ops x, rmap under (run W T k ops x) = run V T k ops (under x).
Proof.
  induction k as [|k IH]; intros ops x; cbn [run]; [reflexivity|].
  destruct ops as [|cur rest]; [destruct x; reflexivity|]. cbv zeta.
  destruct (var_f cur =? 0). { apply rmap_bind with (g := under); [apply b_variable_hom|auto]. }
  destruct (var_f cur =? 1).
  { destruct (delayed_code cur rest) as [d rest1]. destruct (Nat.ltb (length rest1) (Z.to_nat (var_x cur))); [reflexivity|].
    apply rmap_bind with (g := under); [|auto]. change (fst (under x)) with (fst x).
    destruct (is_pending (fst x) =? 0); [|apply r_bitmap_hom]. destruct x as [st w]. unfold r_replication, under at 2. cbn [fst snd].
    apply rmap_bind with (g := under2).
    - destruct (var_y cur =? 0); [|reflexivity]. destruct (query (tb_b T) d) as [i| |]; cbn [bind]; try reflexivity.
      apply (hm_factor H).
    - intros [n w1]. cbn [under2 fst snd]. apply (repeat_hom (run W T k _) (run V T k _) (fun x => IH _ x) (Z.to_nat n) (st, w1)). }
  destruct (var_f cur =? 2).
  { apply rmap_bind with (g := under3); [apply c_modifier_hom|]. intros [[r st] w]. cbn [under3 fst snd]. apply IH. }
  destruct (dexpand (tb_d T) cur) as [body| |]; cbn [bind]; try reflexivity.
  apply rmap_bind with (g := under); auto.
Qed.
End Hom.
