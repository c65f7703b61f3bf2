(** * Programs that call no Writer (proofs) *)
From stdpp Require Import gmap.
From Coq Require Import ZifyBool.
From Verif Require Import RunFacts Post Own.

(** No Writer is called; and if every Close of a Reader succeeds, [Q] holds of the
    result. *)
Fixpoint quiet {A} (Q : A -> Prop) (m : prog A) : Prop :=
  match m with
  | Ret a => Q a
  | Panic _ | Spin => True
  | Do a k =>
      match a in act Y return (Y -> prog A) -> Prop with
      | CallWrite _ _ => fun _ => False
      | CallClose _ => fun k => forall x, quiet (fun a => x = None -> Q a) (k x)
      | _ => fun k => forall x, quiet Q (k x)
      end k
  end.
Lemma quiet_impl {A} (Q Q' : A -> Prop) (m : prog A) : (forall a, Q a -> Q' a) -> quiet Q m -> quiet Q' m.
Proof.
  revert Q Q'. induction m as [a|e| |X a k IH]; intros Q Q' HQ; cbn; auto.
  destruct a; try (intros H y; eapply IH; [exact HQ|apply H]); try done. intros H y. eapply IH; [|apply H]. cbn. auto.
Qed.
Lemma quiet_bind {A B} (P : A -> Prop) (Q : B -> Prop) (m : prog A) (k : A -> prog B) :
  quiet P m -> (forall a, quiet (fun b => P a -> Q b) (k a)) -> quiet Q (bind m k).
Proof.
  revert P Q. induction m as [a|e| |X a k' IH]; intros P Q Hm Hk; cbn in *; auto.
  - eapply quiet_impl; [|apply Hk]. cbn. auto.
  - destruct a; try (intros y; eapply IH; [apply Hm|done]); try done. intros y. eapply IH; [apply Hm|]. intros b. cbn. eapply quiet_impl; [|apply Hk]. cbn. auto.
Qed.
Lemma quiet_step {A B} (Q : B -> Prop) (m : prog A) (k : A -> prog B) :
  quiet (fun _ => True) m -> (forall a, quiet Q (k a)) -> quiet Q (bind m k).
Proof. intros Hm Hk. eapply quiet_bind; [exact Hm|]. intros a. eapply quiet_impl; [|apply Hk]. cbn. auto. Qed.
Lemma quiet_deferred {A} (Q : A -> Prop) (m : prog A) l : quiet Q m -> quiet Q (deferred m (Unlock l)).
Proof. revert Q. induction m as [a|e| |X a k' IH]; intros Q; cbn; auto. destruct a; auto. Qed.
Lemma quiet_locked {A} (Q : A -> Prop) (m : prog A) l : quiet Q m -> quiet Q (locked l m).
Proof. intros H. cbn. intros _. by apply quiet_deferred. Qed.
Lemma quiet_of_option {A} (Q : A -> Prop) e (o : option A) : (forall a, o = Some a -> Q a) -> quiet Q (of_option e o).
Proof. destruct o; cbn; auto. Qed.

Section Run.
Context {W : Type} (E : env W) (R : W -> W -> Prop).
Hypothesis Hrefl : Reflexive R.
Hypothesis Htrans : Transitive R.
Hypothesis H_read : forall w r p, R w (ev_read E w r p).1.
Hypothesis H_readat : forall w r p off, R w (ev_readat E w r p off).1.
Hypothesis H_seek : forall w r off wh, R w (ev_seek E w r off wh).1.
Hypothesis H_close : forall w r, R w (ev_close E w r).1.
Hypothesis H_stat : forall w r, R w (ev_stat E w r).1.
Lemma quiet_run {A} (Q : A -> Prop) (m : prog A) : quiet Q m -> forall h, R (h_w h) (h_w (run E h m).1).
Proof.
  revert Q. induction m as [a|e| |X a k IH]; intros Q Hq h; cbn [run]; try apply Hrefl.
  destruct (act_step E h a) as [[h1 x]|] eqn:Ha; [|apply Hrefl].
  assert (exists Q', quiet Q' (k x)) as [Q' Hq'] by (destruct a; cbn in Hq; try done; eauto).
  transitivity (h_w h1); [|by eapply IH]. clear IH Hq'. destruct a; cbn in Ha, Hq; try done; repeat case_match; simplify_eq/=; try apply Hrefl.
  - match goal with H : ev_read _ ?w ?r ?p = _ |- _ => pose proof (H_read w r p) as H1; rewrite H in H1; exact H1 end.
  - match goal with H : ev_readat _ ?w ?r ?p ?o = _ |- _ => pose proof (H_readat w r p o) as H1; rewrite H in H1; exact H1 end.
  - match goal with H : ev_seek _ ?w ?r ?p ?o = _ |- _ => pose proof (H_seek w r p o) as H1; rewrite H in H1; exact H1 end.
  - match goal with H : ev_close _ ?w ?r = _ |- _ => pose proof (H_close w r) as H1; rewrite H in H1; exact H1 end.
  - match goal with H : ev_stat _ ?w ?r = _ |- _ => pose proof (H_stat w r) as H1; rewrite H in H1; exact H1 end.
Qed.
End Run.
Lemma quiet_result {W} (E : env W) {A} (Q : A -> Prop) (m : prog A) : (forall w r, (ev_close E w r).2 = None) -> quiet Q m ->
  forall h h' a, run E h m = (h', ORet a) -> Q a.
Proof.
  intros Hc. revert Q. induction m as [a|e| |X a k IH]; intros Q Hq h h' b; cbn [run]; try done.
  - intros [= <- <-]. exact Hq.
  - destruct (act_step E h a) as [[h1 x]|] eqn:Ha; [|done]. intros H. destruct a; cbn in Hq; try done; try (eapply IH; [apply Hq|exact H]).
    eapply (IH x (fun a => x = None -> Q a)); [apply Hq|exact H|]. cbn in Ha. specialize (Hc (h_w h) r). destruct (ev_close E (h_w h) r). cbn in Hc. by injection Ha as _ <-.
Qed.

Ltac quiet1 :=
  match goal with
  | |- quiet _ (locked _ _) => apply quiet_locked
  | |- quiet _ (bind _ _) => apply quiet_step; [|intros ?]
  | |- quiet _ (of_option _ _) => apply quiet_of_option; intros ? ?; try exact I
  | |- quiet _ (match ?x with _ => _ end) => destruct x
  | |- quiet _ (let '(_, _) := ?x in _) => destruct x
  | |- quiet _ (Ret _) => cbn; try done
  | |- quiet _ (Panic _) => exact I
  | |- quiet _ Spin => exact I
  | |- quiet _ (assert ?x) => destruct x; cbn; try done
  | |- quiet _ (perform _) => cbn; try (intros ?; done)
  end.
Ltac quiet_go := cbv zeta; repeat (quiet1; cbv zeta).
Notation T := (fun _ => True).
Lemma q_ldEmpty i : quiet T (ldEmpty i). Proof. cbn. by intros []. Qed.
Lemma q_ldBytes i : quiet T (ldBytes i). Proof. cbn. by intros []. Qed.
Lemma q_ldSeeker i : quiet T (ldSeeker i). Proof. cbn. by intros []. Qed.
Lemma q_ldReaderAt i : quiet T (ldReaderAt i). Proof. cbn. by intros []. Qed.
Lemma q_ldBuffered i : quiet T (ldBuffered i). Proof. cbn. by intros []. Qed.
Lemma q_ldSeekerC i : quiet T (ldSeekerC i). Proof. cbn. by intros []. Qed.
Lemma q_ldReaderAtC i : quiet T (ldReaderAtC i). Proof. cbn. by intros []. Qed.
Lemma q_ldBufferedC i : quiet T (ldBufferedC i). Proof. cbn. by intros []. Qed.
Ltac qld := first [apply q_ldEmpty|apply q_ldBytes|apply q_ldSeeker|apply q_ldReaderAt|apply q_ldBuffered|apply q_ldSeekerC|apply q_ldReaderAtC|apply q_ldBufferedC].
Ltac qq := cbv zeta; repeat (first [qld|quiet1]; cbv zeta).
Lemma q_seeker_readAt x p off : quiet T (seeker_readAt x p off). Proof. unfold seeker_readAt. qq. Qed.
Lemma q_readerAt_readAt x p off : quiet T (readerAt_readAt x p off). Proof. unfold readerAt_readAt. qq. Qed.
Lemma q_fill fuel c bufNew bufLen num bb eb : quiet T (buffered_fill fuel c bufNew bufLen num bb eb).
Proof. revert bufNew bufLen num eb. induction fuel; intros; cbn [buffered_fill]; qq. apply IHfuel. Qed.
Lemma q_fetch fuel c b e o : quiet T (buffered_fetch fuel c b e o).
Proof. unfold buffered_fetch. qq. apply q_fill. Qed.
Lemma q_update l b r : quiet T (updateStart_loop l b r).
Proof. revert b r. induction l; intros; cbn [updateStart_loop]; qq; apply IHl. Qed.
Lemma q_drop c : quiet T (buffered_drop c).
Proof. unfold buffered_drop, buffered_updateStart. qq. apply q_update. Qed.
Lemma q_advance c a b : quiet T (buffered_advance c a b).
Proof. unfold buffered_advance, buffered_updateStart, buffered_drop, buffered_updateStart. qq; apply q_update. Qed.

(** What Close returns if the Reader's Close, if called at all, succeeds. *)
Definition nil_err (e : option error) : Prop := e = None.
Lemma q_sk_unref c : quiet nil_err (seeker_unref c).
Proof.
  unfold seeker_unref. apply quiet_locked, quiet_step; [qq|intros x]. cbv zeta. apply quiet_step; [qq|intros _]. quiet1; [done|].
  eapply (quiet_bind nil_err); [by qq|]. intros e. by qq.
Qed.
Lemma q_ra_unref c : quiet nil_err (readerAt_unref c).
Proof.
  unfold readerAt_unref. apply quiet_locked, quiet_step; [qq|intros x]. cbv zeta. apply quiet_step; [qq|intros _]. quiet1; [done|].
  eapply (quiet_bind nil_err); [by qq|]. intros e. by qq.
Qed.
Lemma q_bf_unref c i : quiet nil_err (buffered_unref c i).
Proof. unfold buffered_unref. qq. apply q_drop. Qed.
Lemma q_sk_unref' c : quiet T (seeker_unref c). Proof. eapply quiet_impl; [|apply q_sk_unref]. done. Qed.
Lemma q_ra_unref' c : quiet T (readerAt_unref c). Proof. eapply quiet_impl; [|apply q_ra_unref]. done. Qed.
Lemma q_bf_unref' c i : quiet T (buffered_unref c i). Proof. eapply quiet_impl; [|apply q_bf_unref]. done. Qed.
Ltac qu := unfold empty_BytesRemaining, empty_Read, empty_Close, empty_Seek, empty_ReadAt, empty_Copy, empty_Unwrap,
  bytes_BytesRemaining, bytes_Read, bytes_Close, bytes_Seek, bytes_ReadAt, bytes_Copy, bytes_Unwrap,
  seeker_BytesRemaining, seeker_Read, seeker_Close, seeker_Seek, seeker_ReadAt, seeker_Copy, seeker_Unwrap, seekerCommon_BytesRemaining, seeker_ref,
  readerAt_BytesRemaining, readerAt_Read, readerAt_Close, readerAt_Seek, readerAt_ReadAt, readerAt_Copy, readerAt_Unwrap, readerAtCommon_BytesRemaining, readerAt_ref,
  buffered_BytesRemaining, buffered_Read, buffered_Close, buffered_Copy, buffered_Unwrap, buffered_ref.
Lemma q_method fuel o i f : (forall w, f <> WriteTo w) -> quiet T (method fuel o i f).
Proof.
  intros Hf. destruct f; try (by destruct (Hf w)); destruct o; cbn [method]; try exact I;
    unfold rint, rread, rerr, rseek, rbody, rreader; qu;
    repeat (first [apply q_sk_unref'|apply q_ra_unref'|apply q_bf_unref'|apply q_fetch|apply q_advance|apply q_seeker_readAt|apply q_readerAt_readAt|qld|quiet1]; cbv zeta).
Qed.

Lemma close_nil {W} (E : env W) fuel h i b h' e :
  (forall w r, (ev_close E w r).2 = None) -> h_b h !! i = Some b -> shut b = false ->
  exec E fuel h (Call i Close) = (h', ORet (RErr e)) -> e = None.
Proof.
  intros Hc Hi Hs. unfold exec, cmd_prog. rewrite Hi.
  destruct b as [|b|b|b|b|b]; cbn [method shut] in *; [done|..].
  - cbn. rewrite Hi. cbn. rewrite Hs. cbn. rewrite Hi. cbn. by intros [= <- <-].
  - cbn. rewrite Hi. cbn. rewrite Hs. cbn. rewrite Hi. cbn. by intros [= <- <-].
  - unfold rerr, seeker_Close. rewrite run_bind, run_locked, run_bind, (run_ldSeeker E h i b Hi), Hs.
    match goal with |- match run E h ?m with _ => _ end = _ -> _ => assert (Hq : quiet nil_err m) end.
    { apply quiet_step; [qq|intros _]. apply quiet_step; [qq|intros c]. apply q_sk_unref. }
    destruct (run _ _ _) as [h1 [x|p|]] eqn:Hm1; try done. intros [= <- ->]. by eapply (quiet_result E nil_err _ Hc).
  - unfold rerr, readerAt_Close. rewrite run_bind, run_locked, run_bind, (run_ldReaderAt E h i b Hi), Hs.
    match goal with |- match run E h ?m with _ => _ end = _ -> _ => assert (Hq : quiet nil_err m) end.
    { apply quiet_step; [qq|intros _]. apply quiet_step; [qq|intros c]. apply q_ra_unref. }
    destruct (run _ _ _) as [h1 [x|p|]] eqn:Hm1; try done. intros [= <- ->]. by eapply (quiet_result E nil_err _ Hc).
  - unfold rerr, buffered_Close. rewrite run_bind, run_locked, run_bind, (run_ldBuffered E h i b Hi), Hs.
    match goal with |- match run E h ?m with _ => _ end = _ -> _ => assert (Hq : quiet nil_err m) end.
    { apply quiet_step; [qq|intros c]. eapply quiet_bind; [apply q_bf_unref|]. intros e'. apply quiet_step; [qq|intros _]. by cbn. }
    destruct (run _ _ _) as [h1 [x|p|]] eqn:Hm1; try done. intros [= <- ->]. by eapply (quiet_result E nil_err _ Hc).
Qed.
