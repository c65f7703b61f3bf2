(** * Linearizability of calls on the copies of one Body (proofs) *)
From Verif Require Import Wf.
From Verif Require Export Lin.

Section LinMain.
Context {W : Type} (E : env W) (fuel : nat).
Implicit Types h : heap W.
Implicit Types cf : conf W.

Lemma lin_steps md cf0 S0 evs cf : csteps E fuel cf0 evs cf -> lrel E fuel md cf0 S0 (cf_h cf0) (fun _ => LIdle) -> only_calls evs ->
  exists S hs ls l, lrel E fuel md cf S hs ls /\ observed l = evs /\ explains E fuel (cf_h cf0) (fun _ => LIdle) l hs ls.
Proof.
  intros Hs H0. induction Hs as [|evs cf1 e cf2 Hs IH He]; intros Hc.
  - exists S0, (cf_h cf0), (fun _ => LIdle), []. split; [done|]. split; [done|constructor].
  - destruct IH as (S & hs & ls & l & HR & Ho & Hx). { intros t c Hin. eapply Hc, elem_of_app. by left. }
    destruct (lin_step _ _ _ _ _ _ _ _ _ HR He) as (S' & hs' & ls' & l' & HR' & Ho' & Hx').
    { intros t c ->. eapply Hc, elem_of_app. right. by apply elem_of_list_singleton. }
    exists S', hs', ls', (l ++ l'). split; [done|]. split; [|by apply Hx'].
    assert (Happ : forall l1 l2, observed (l1 ++ l2) = observed l1 ++ observed l2). { induction l1 as [|[]]; intros; cbn; congruence. }
    by rewrite Happ, Ho, Ho'.
Qed.

Lemma lin_start w evs0 cf0 ks : csteps E fuel (start w) evs0 cf0 -> (forall t, cf_t cf0 t = Idle) ->
  closedSingleton ∈ ks -> (forall i, i ∈ ks -> i ∈ cf_k cf0) -> copies (cf_h cf0) ks ->
  exists md, lrel E fuel md (Conf (cf_h cf0) (cf_l cf0) (cf_t cf0) ks) (fun _ => PF None) (cf_h cf0) (fun _ => LIdle).
Proof.
  intros Hs Hidle Hz Hks (c & Hc). destruct (cinv_steps E fuel _ _ _ Hs) as (S & O & HI). exists c.
  assert (HS : forall t, S t = PF None). { intros t. pose proof (bi_thr _ _ (ci_b _ _ _ _ HI) t) as Ht. by rewrite Hidle in Ht. }
  destruct cf0 as [h L T K]. cbn in *. split; cbn; try done.
  - eapply binv_ext; [..|exact (ci_b _ _ _ _ HI)]; done.
  - pose proof (finv_ext h L T K T L S (fun _ => PF None) ltac:(done) ltac:(done) (ci_f _ _ _ _ HI)) as [F1 F2 F3 F4 F5 F6 F7 F8]. cbn in *. split; cbn; try done.
    + intros t c0 m i HT. by rewrite Hidle in HT.
    + intros t i Hi. by apply elem_of_nil in Hi.
    + intros i Hi. by apply F5, Hks.
  - intros t. by rewrite Hidle.
  - intros i Hi. destruct (Hc i Hi) as (b & Hb & _). by eapply lookup_lt_Some.
  - intros i [Hi|(t & Hf)]; [|done]. destruct (Hc i Hi) as (b & Hb & Hm). exists b. split; [done|]. unfold okfam.
    destruct c as [c|]; destruct b; cbn in Hm |- *; try done; try (destruct Hm as (c0 & ? & Hm)); try done; auto.
Qed.

(** ** The theorems *)
Theorem linearized w evs0 cf0 ks evs cf : csteps E fuel (start w) evs0 cf0 -> (forall t, cf_t cf0 t = Idle) ->
  closedSingleton ∈ ks -> (forall i, i ∈ ks -> i ∈ cf_k cf0) -> copies (cf_h cf0) ks ->
  csteps E fuel (Conf (cf_h cf0) (cf_l cf0) (cf_t cf0) ks) evs cf -> only_calls evs ->
  exists l h' s', observed l = evs /\ explains E fuel (cf_h cf0) (fun _ => LIdle) l h' s' /\
    ((forall t, cf_t cf t = Idle) -> cf_h cf = h').
Proof.
  intros H0 Hidle Hz Hks Hc Hs Honly. destruct (lin_start _ _ _ _ H0 Hidle Hz Hks Hc) as (md & HR).
  destruct (lin_steps _ _ _ _ _ Hs HR Honly) as (S & hs & ls & l & HR' & Ho & Hx).
  exists l, hs, ls. split; [done|]. split; [done|]. intros Hid.
  assert (HS : forall t, S t = PF None). { intros t. pose proof (bi_thr _ _ (lr_b _ _ _ _ _ _ _ HR') t) as Ht. by rewrite Hid in Ht. }
  destruct (lr_rest _ _ _ _ _ _ _ HR') as [Q1 Q2 Q3 Q4]. { intros t. by rewrite HS. }
  apply heap_eq; try done. apply list_eq. intros i. destruct (decide (i < length (h_b hs))%nat) as [Hi|Hi].
  - symmetry. apply (lr_free _ _ _ _ _ _ _ HR'); [done|]. intros t. rewrite HS. apply not_elem_of_nil.
  - rewrite !lookup_ge_None_2 by lia. done.
Qed.
Theorem linearizable_copies w evs0 cf0 ks evs cf : csteps E fuel (start w) evs0 cf0 -> (forall t, cf_t cf0 t = Idle) ->
  closedSingleton ∈ ks -> (forall i, i ∈ ks -> i ∈ cf_k cf0) -> copies (cf_h cf0) ks ->
  csteps E fuel (Conf (cf_h cf0) (cf_l cf0) (cf_t cf0) ks) evs cf -> only_calls evs -> linearizable E fuel (cf_h cf0) evs.
Proof.
  intros H0 Hidle Hz Hks Hc Hs Honly. destruct (linearized _ _ _ _ _ _ H0 Hidle Hz Hks Hc Hs Honly) as (l & h' & s' & H1 & H2 & _). by exists l, h', s'.
Qed.

Lemma allocs_app {A} (m : prog A) : forall h h1 m1, allocs E h m = (h1, m1) -> forall i b, h_b h !! i = Some b -> h_b h1 !! i = Some b.
Proof.
  induction m as [r|e| |X a k IH]; intros h h1 m1 Hal i b Hb; cbn in Hal; try (injection Hal as <- _; done).
  destruct (alloc_step E h a) as [[h' x]|] eqn:Ha; [|by injection Hal as <- _]. eapply IH; [done|].
  destruct a; cbn in Ha; try done; injection Ha as <- <-; cbn; [by apply lookup_app_l_Some|done].
Qed.
Lemma zero_closed w evs cf : csteps E fuel (start w) evs cf -> h_b (cf_h cf) !! closedSingleton = Some BClosed.
Proof.
  intros Hs. induction Hs as [|evs cf e cf' Hs IH He]; [done|]. destruct (cinv_steps E fuel _ _ _ Hs) as (S & O & HI).
  pose proof (busy_made E fuel _ _ _ Hs) as Hrd. destruct cf as [h L T K].
  destruct He as [t c HT Hu|t c m h1 X a k L' h2 x HT Hal HL Ha|t c m h1 m1 o HT Hal Ho]; cbn in *; [done| |by eapply allocs_app].
  destruct (cinv_allocs E _ _ _ t c _ (fun r => Hrd t c m r HT) _ _ _ _ _ _ HI HT Hal) as (s & O' & Hc).
  destruct (ci_b _ _ _ _ Hc) as [Ht Hso _]. specialize (Ht t). cbn in *. rewrite !fn_lookup_insert in Ht. destruct (tok_busy _ _ _ _ _ _ Ht) as (Hok & _ & Hhd).
  specialize (Hso t). rewrite fn_lookup_insert in Hso. destruct (act_sound E _ _ _ _ _ _ _ Hso Hok Ha Hhd) as (_ & Hev & _).
  destruct (ev_kind _ _ _ Hev _ _ (allocs_app _ _ _ _ Hal _ _ IH)) as (b' & -> & Hk). by destruct b'.
Qed.

Theorem linearizable_one w evs0 cf0 i evs cf : csteps E fuel (start w) evs0 cf0 -> (forall t, cf_t cf0 t = Idle) -> i ∈ cf_k cf0 ->
  csteps E fuel (Conf (cf_h cf0) (cf_l cf0) (cf_t cf0) [closedSingleton; i]) evs cf -> only_calls evs -> linearizable E fuel (cf_h cf0) evs.
Proof.
  intros H0 Hidle Hi Hs Honly. destruct (cinv_steps E fuel _ _ _ H0) as (S & O & HI).
  pose proof (fi_zero _ _ (ci_f _ _ _ _ HI)) as Hz. pose proof (fi_known _ _ (ci_f _ _ _ _ HI)) as Hk.
  apply (linearizable_copies w evs0 cf0 [closedSingleton; i] evs cf); try done.
  - apply elem_of_cons. by left.
  - intros j Hj. rewrite !elem_of_cons, elem_of_nil in Hj. by destruct Hj as [->|[->|[]]].
  - destruct (Hk i Hi) as [b Hb]. pose proof (zero_closed _ _ _ H0) as H00.
    assert (Hcase : forall P : nat -> Prop, P closedSingleton -> P i -> forall j, j ∈ [closedSingleton; i] -> P j).
    { intros P P0 Pi j Hj. rewrite !elem_of_cons, elem_of_nil in Hj. by destruct Hj as [->|[->|[]]]. }
    exists (match b with BClosed | BEmpty _ | BBytes _ => None | _ => Some (default 0%nat (body_common b)) end).
    apply Hcase; eexists; (split; [done|]); [done|].
    destruct b as [| | |b|b|b]; try done; eexists; (split; [done|]); cbn; [destruct (sb_common b)|destruct (rb_common b)|destruct (bb_common b)]; auto.
Qed.
End LinMain.
