(** * Proof of C16: the order of map iteration does not matter *)
From stdpp Require Import gmap.
From Coq Require Import ZifyBool.
From Verif Require Import Buffered.

Lemma count_eq_perm b os os' : os ≡ₚ os' -> count_eq b os = count_eq b os'.
Proof. intros H. unfold count_eq, zlen. f_equal. by rewrite H. Qed.

Lemma us_pure_perm os os' : os ≡ₚ os' -> zlen os < 2 ^ 31 -> us_pure os 0 0 = us_pure os' 0 0.
Proof.
  intros Hp Hsz. destruct (decide (os = [])) as [->|Hne].
  { by apply Permutation_nil in Hp as ->. }
  assert (Hne' : os' <> []) by (intros ->; apply Hne; by apply Permutation_nil, Permutation_sym).
  assert (Hsz' : zlen os' < 2 ^ 31) by (unfold zlen in *; by rewrite <- Hp).
  pose proof (us_pure_start os Hne Hsz) as H1. pose proof (us_pure_start os' Hne' Hsz') as H2.
  destruct (us_pure os 0 0) as [b r], (us_pure os' 0 0) as [b' r'].
  destruct H1 as (A1 & A2 & A3 & A4), H2 as (B1 & B2 & B3 & B4).
  assert (b = b') as <-.
  { assert (b' <= b) by (apply B2; by rewrite <- Hp). assert (b <= b') by (apply A2; by rewrite Hp). lia. }
  f_equal. rewrite A3, B3. by apply count_eq_perm.
Qed.

Section Order.
Context {W : Type} (E : env W).
Implicit Types h : heap W.

(** The loop meets something that is not a buffered Body (never the case). *)
Lemma us_loop_stuck h m : forall b r,
  Exists (fun i => forall x, h_b h !! i <> Some (BBuffered x)) m ->
  run E h (updateStart_loop m b r) = (h, OPanic PNil).
Proof.
  induction m as [|k m IH]; intros b r Hex; [by apply Exists_nil in Hex|]. cbn [updateStart_loop].
  rewrite run_bind. unfold ldBuffered. cbn. destruct (h_b h !! k) as [o|] eqn:Hk; [|done].
  destruct o as [| | | | |x]; cbn; try done.
  apply Exists_cons in Hex as [Hex|Hex]; [by destruct (Hex x)|].
  destruct ((r <=? 0) || (bb_offset x <? b)); by apply IH.
Qed.

Lemma us_loop_perm h l l' :
  l ≡ₚ l' -> zlen l < 2 ^ 31 ->
  run E h (updateStart_loop l 0 0) = run E h (updateStart_loop l' 0 0).
Proof.
  intros Hp Hsz.
  assert (Hdec : forall m, Exists (fun i => forall x, h_b h !! i <> Some (BBuffered x)) m \/
                           (forall i, i ∈ m -> exists x, h_b h !! i = Some (BBuffered x))).
  { induction m as [|k m [IH|IH]]; [right; intros i Hi; by apply elem_of_nil in Hi|left; by right|].
    destruct (h_b h !! k) as [[| | | | |x]|] eqn:Hk; try (left; left; congruence).
    right. intros i Hi. apply elem_of_cons in Hi as [->|Hi]; eauto. }
  destruct (Hdec l) as [Hs|Hok].
  - rewrite us_loop_stuck by done. rewrite us_loop_stuck; [done|]. by rewrite <- Hp.
  - rewrite !run_us_loop; [|intros i Hi; apply Hok; by rewrite Hp|done].
    do 2 f_equal. apply us_pure_perm; [by rewrite Hp|]. unfold zlen in *. by rewrite map_length.
Qed.

Definition reorder (l : list nat) (cm : bufferedCommon) : bufferedCommon :=
  {| bc_r := bc_r cm; bc_err := bc_err cm; bc_bodies := Some l; bc_bytes := bc_bytes cm;
     bc_length := bc_length cm; bc_start := bc_start cm; bc_refcnt := bc_refcnt cm |}.

Lemma updateStart_order h c cm l l' :
  h_c h !! c = Some (CBuffered cm) -> bc_bodies cm = Some l -> l ≡ₚ l' -> zlen l < 2 ^ 31 ->
  let h' := set_c h (<[c := CBuffered (reorder l' cm)]> (h_c h)) in
  let '(h1, o) := run E h (buffered_updateStart c) in
  let '(h1', o') := run E h' (buffered_updateStart c) in
  o' = o /\ exists cm1, h_c h1 !! c = Some (CBuffered cm1) /\ bc_bodies cm1 = Some l /\
    h1 = set_c h (<[c := CBuffered cm1]> (h_c h)) /\
    h1' = set_c h (<[c := CBuffered (reorder l' cm1)]> (h_c h)).
Proof.
  intros Hc Hl Hp Hsz. set (h' := set_c h _). cbv zeta.
  assert (Hlt : (c < length (h_c h))%nat) by by eapply lookup_lt_Some.
  assert (Hc' : h_c h' !! c = Some (CBuffered (reorder l' cm))) by (unfold h'; cbn; by apply list_lookup_insert).
  assert (Hsame : h = set_c h (<[c := CBuffered cm]> (h_c h))) by (rewrite list_insert_id by done; by destruct h).
  assert (Hloop : forall k b r, run E h' (updateStart_loop k b r) = (h', snd (run E h (updateStart_loop k b r)))
                              /\ fst (run E h (updateStart_loop k b r)) = h).
  { induction k as [|k0 k IH]; intros b r; [done|]. cbn [updateStart_loop]. rewrite !run_bind. unfold ldBuffered. cbn.
    destruct (h_b h !! k0) as [o|]; [|done]. destruct o as [| | | | |x]; cbn; try done.
    destruct ((r <=? 0) || (bb_offset x <? b)); apply IH. }
  unfold buffered_updateStart. rewrite !run_bind. unfold ldBufferedC. cbn [bind perform run act_step].
  rewrite Hc, Hc'. cbn [run bind]. rewrite !run_bind. rewrite Hl. cbn [default reorder bc_bodies from_option id]. unfold id.
  destruct (Hloop l' 0 0) as [Hlp _]. rewrite Hlp. rewrite <- (us_loop_perm h l l' Hp Hsz).
  destruct (Hloop l 0 0) as [_ Hfst]. destruct (run E h (updateStart_loop l 0 0)) as [h0 o]. cbn in Hfst. subst h0. cbn [snd].
  destruct o as [[b r]| |]; [|split; [done|]; exists cm; done..].
  rewrite !run_bind. destruct (b >=? bc_start cm) eqn:Hb; cbn [bc_start reorder]; rewrite Hb; cbn [assert run]; [|split; [done|]; exists cm; done].
  destruct (r >=? 1); cbn [assert bind run]; [|split; [done|]; exists cm; done].
  cbn [bc_bytes reorder].
  destruct (slice (bc_bytes cm) (b - bc_start cm) (zlen (bc_bytes cm))) as [bs|]; cbn [of_option bind run]; [|split; [done|]; exists cm; done].
  cbn [perform run act_step]. rewrite Hc, Hc'. cbn [run]. split; [done|].
  eexists. split; [cbn; by apply list_lookup_insert|]. split; [cbn; done|]. split; [done|].
  unfold h', set_c, reorder. cbn. rewrite list_insert_insert. done.
Qed.
End Order.
