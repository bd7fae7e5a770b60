(** C29: a file made of written messages. *)
From Coq Require Import ZifyNat String.
From Verif Require Import Base Message.Spec Crex.Model Crex.Spec Crex.Proofs Crex.MessageProofs Crex.StreamProofs Crex.Properties.
Local Open Scope Z_scope.

(** Messages that are encoded and written one after the other, where each text as encoded ends with the line end that follows 7777, are read back
    one by one, in order, and then the file ends. *)
Theorem C29_written_file : forall ms fuel, (length ms < fuel)%nat ->
  Forall (fun m => exists body e, m = crex_start ++ body ++ mark 4 e /\ eols e /\
      (forall e', eols e' -> ~ occurs (mark 4 e') body) /\ ~ ends_with body [43] /\
      (forall e' j, eols e' -> (j <= 3)%nat -> ~ ends_with body (mark j e'))) ms ->
  read_all_crex fuel (flat_map (fun m => write_crex (m ++ [13; 13; 10])) ms) = Ok ms.
Proof.
  intros ms fuel L F.
  set (gap := [13; 13; 10; 13; 13; 10]).
  set (items := fix items (sep : list Z) (l : list (list Z)) : list (list Z * list Z) := match l with [] => [] | m :: r => (sep, m) :: items gap r end).
  assert (N : forall sep, sep = [] \/ sep = gap -> ~ occurs crex_start sep /\ (forall k, (1 <= k <= 5)%nat -> ~ ends_with sep (firstn k crex_start))).
  { intros sep S. assert (C : forall x, In x sep -> x = 13 \/ x = 10).
    { destruct S as [->| ->]; unfold gap; cbn [In]; intros x I; repeat destruct I as [I|I]; try contradiction; auto. }
    split.
    - intros (a & b & E). assert (I : In 67 sep) by (rewrite E; apply in_or_app; right; apply in_or_app; left; left; reflexivity). destruct (C _ I); discriminate.
    - intros k K (a & E). assert (I : In 67 sep) by (rewrite E; apply in_or_app; right; destruct k as [|k]; [lia|]; left; reflexivity). destruct (C _ I); discriminate. }
  assert (E : forall l sep, sep ++ flat_map (fun m => write_crex (m ++ [13; 13; 10])) l =
    fold_right (fun i rest => fst i ++ snd i ++ rest) (match l with [] => sep | _ => gap end) (items sep l)).
  { induction l as [|m l IH]; intros sep; [apply app_nil_r|]. cbn [flat_map items fold_right fst snd]. f_equal.
    unfold write_crex at 1. rewrite <- !app_assoc. f_equal. change ([13; 13; 10] ++ [13; 13; 10] ++ ?x) with (gap ++ x). rewrite IH. destruct l; reflexivity. }
  assert (M : forall l sep, map snd (items sep l) = l) by (induction l as [|m l IH]; intros sep; [reflexivity|]; cbn [items map snd]; f_equal; apply IH).
  specialize (E ms []). cbn [app] in E. rewrite E. rewrite C29_stream.
  - rewrite M. reflexivity.
  - rewrite <- (map_length snd), M. exact L.
  - assert (G : forall l sep, sep = [] \/ sep = gap -> Forall (fun m => exists body e, m = crex_start ++ body ++ mark 4 e /\ eols e /\
        (forall e', eols e' -> ~ occurs (mark 4 e') body) /\ ~ ends_with body [43] /\
        (forall e' j, eols e' -> (j <= 3)%nat -> ~ ends_with body (mark j e'))) l -> Forall (fun i =>
        ~ occurs crex_start (fst i) /\ (forall k, (1 <= k <= 5)%nat -> ~ ends_with (fst i) (firstn k crex_start)) /\
        exists body e, snd i = crex_start ++ body ++ mark 4 e /\ eols e /\
          (forall e', eols e' -> ~ occurs (mark 4 e') body) /\ ~ ends_with body [43] /\
          (forall e' j, eols e' -> (j <= 3)%nat -> ~ ends_with body (mark j e'))) (items sep l)); [|apply G; auto].
    clear E L F ms. induction l as [|m l IH]; intros sep S F; cbn [items]; [constructor|]. apply Forall_cons_iff in F as [Hm F].
    constructor; [|apply IH; auto]. destruct (N sep S) as [N1 N2]. cbn [fst snd]. split; [exact N1|]. split; [exact N2|]. exact Hm.
  - destruct ms; apply N; auto.
Qed.
Print Assumptions C29_written_file.

Example C29_written_example : read_all_crex 10 (write_crex ex_ctext ++ write_crex ex_ctext) = Ok [firstn (length ex_ctext - 3) ex_ctext; firstn (length ex_ctext - 3) ex_ctext].
Proof. vm_compute. reflexivity. Qed.
