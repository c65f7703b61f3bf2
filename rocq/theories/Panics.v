(** * Readers that panic (proofs) *)
From stdpp Require Import gmap.
From Coq Require Import ZifyBool.
From Verif Require Export ProofsStream Source PanicSpec.

Section Panics.
Context {W : Type} (E : env W) (P : hazard W).
Implicit Types h : heap W.

(** ** Where a run can be stopped

    [Q] holds in every heap in which the run of [m] from [h] calls a Reader. *)
Fixpoint stops (Q : heap W -> xcall -> Prop) {A} h (m : prog A) : Prop :=
  match m with
  | Do a k =>
      match call_of a with Some c => Q h c | None => True end /\
      match act_step E h a with Some (h', x) => stops Q h' (k x) | None => True end
  | _ => True
  end.

Lemma xrun_cases Q {A} (m : prog A) : forall h h' o,
  stops Q h m -> xrun E P h m = (h', o) ->
  run E h m = (h', o) \/
  exists hs c w e, Q hs c /\ P (h_w hs) c = Some (w, e) /\ h' = set_w hs w /\ o = OPanic e.
Proof.
  induction m as [a|e| |X a k IH]; intros h h' o Hs; cbn; try (intros ->; by left).
  destruct Hs as [H1 H2]. unfold hits. destruct (call_of a) as [c|].
  - destruct (P (h_w h) c) as [[w e]|] eqn:HP.
    + intros [= <- <-]. right. by exists h, c, w, e.
    + destruct (act_step E h a) as [[h1 x]|]; [by apply IH|by left].
  - destruct (act_step E h a) as [[h1 x]|]; [by apply IH|by left].
Qed.

Lemma stops_bind Q {A B} (m : prog A) (k : A -> prog B) : forall h,
  stops Q h m -> (forall h1 x, run E h m = (h1, ORet x) -> stops Q h1 (k x)) -> stops Q h (bind m k).
Proof.
  induction m as [a|e| |X a k' IH]; intros h Hs Hk; cbn; try done; [by apply Hk|].
  destruct Hs as [H1 H2]. split; [done|]. cbn in Hk. destruct (act_step E h a) as [[h1 x]|]; [|done]. by apply IH.
Qed.
Lemma stops_deferred Q {A} l (m : prog A) : forall h, stops Q h m -> stops Q h (deferred m (Unlock l)).
Proof.
  induction m as [a|e| |X a k IH]; intros h Hs; cbn in *; try done.
  destruct Hs as [H1 H2]. split; [done|]. destruct (act_step E h a) as [[h1 x]|]; [by apply IH|done].
Qed.
Lemma stops_locked Q {A} l (m : prog A) h : stops Q h m -> stops Q h (locked l m).
Proof. intros Hs. cbn. split; [done|]. by apply stops_deferred. Qed.
Lemma stops_impl (Q Q' : heap W -> xcall -> Prop) {A} (m : prog A) : forall h,
  (forall hs c, Q hs c -> Q' hs c) -> stops Q h m -> stops Q' h m.
Proof.
  induction m as [a|e| |X a k IH]; intros h HQ Hs; cbn in *; try done. destruct Hs as [H1 H2].
  split; [destruct (call_of a); [by apply HQ|done]|]. destruct (act_step E h a) as [[h1 x]|]; [by apply IH|done].
Qed.

(** Programs that call no Reader. *)
Fixpoint noext {A} (m : prog A) : Prop :=
  match m with Do a k => call_of a = None /\ forall x, noext (k x) | _ => True end.
Lemma noext_stops Q {A} (m : prog A) : forall h, noext m -> stops Q h m.
Proof.
  induction m as [a|e| |X a k IH]; intros h Hn; cbn in *; try done. destruct Hn as [-> H2].
  split; [done|]. destruct (act_step E h a) as [[h1 x]|]; [by apply IH|done].
Qed.
Lemma noext_bind {A B} (m : prog A) (k : A -> prog B) : noext m -> (forall a, noext (k a)) -> noext (bind m k).
Proof. induction m as [a|e| |X a k' IH]; cbn; intros H1 H2; auto. destruct H1. auto. Qed.
Lemma noext_locked {A} l (m : prog A) : noext m -> noext (locked l m).
Proof.
  intros H. cbn. split; [done|]. intros _. induction m as [| | |X a k IH]; cbn in *; auto. destruct H. auto.
Qed.
Lemma noext_of_option {A} e (o : option A) : noext (of_option e o).
Proof. by destruct o. Qed.
Lemma noext_assert b : noext (assert b).
Proof. by destruct b. Qed.
End Panics.

Ltac nx :=
  repeat first
    [ progress intros
    | apply noext_locked | apply noext_bind | apply noext_of_option | apply noext_assert
    | match goal with
      | |- noext (match ?x with _ => _ end) => destruct x
      | |- noext (perform _) => cbn; auto
      | |- noext (Do _ _) => split; [done|]
      | |- noext (ldEmpty _) => cbn; split; [done|]; intros []; cbn; auto
      | |- noext (ldBytes _) => cbn; split; [done|]; intros []; cbn; auto
      | |- noext (ldSeeker _) => cbn; split; [done|]; intros []; cbn; auto
      | |- noext (ldReaderAt _) => cbn; split; [done|]; intros []; cbn; auto
      | |- noext (ldBuffered _) => cbn; split; [done|]; intros []; cbn; auto
      | |- noext (ldSeekerC _) => cbn; split; [done|]; intros []; cbn; auto
      | |- noext (ldReaderAtC _) => cbn; split; [done|]; intros []; cbn; auto
      | |- noext (ldBufferedC _) => cbn; split; [done|]; intros []; cbn; auto
      | |- noext (let _ := _ in _) => cbv zeta
      | |- noext (Ret _) => exact I
      | |- noext (Panic _) => exact I
      end ].

Lemma nx_updateStart_loop l x y : noext (updateStart_loop l x y).
Proof. revert x y. induction l as [|k l IH]; intros x y; cbn [updateStart_loop]; nx; try apply IH. Qed.
Lemma nx_drop c : noext (buffered_drop c).
Proof. unfold buffered_drop, buffered_updateStart. nx. apply nx_updateStart_loop. Qed.
Lemma nx_advance c x y : noext (buffered_advance c x y).
Proof. unfold buffered_advance. nx; first [apply nx_drop|apply nx_updateStart_loop]. Qed.

(** The methods that call no Reader. *)
Definition own_means (o : bobj) (f : op) : bool :=
  match o, f with
  | (BClosed | BEmpty _ | BBytes _), _ => true
  | BBuffered _, (Read _ | Close) => false
  | (BSeeker _ | BReaderAt _), (Read _ | ReadAt _ _ | Close) => false
  | _, _ => true
  end.
Lemma nx_method fuel o i f : own_means o f = true -> noext (method fuel o i f).
Proof.
  destruct o, f; try done; intros _; cbn [method];
    unfold rint, rread, rerr, rseek, rwriteto, rbody, rreader,
      closed_BytesRemaining, closed_Read, closed_Close, closed_Seek, closed_ReadAt, closed_WriteTo, closed_Copy, closed_Unwrap,
      empty_BytesRemaining, empty_Read, empty_Close, empty_Seek, empty_ReadAt, empty_WriteTo, empty_Copy, empty_Unwrap,
      bytes_BytesRemaining, bytes_Read, bytes_Close, bytes_Seek, bytes_ReadAt, bytes_WriteTo, bytes_Copy, bytes_Unwrap, call_write,
      seeker_BytesRemaining, seeker_Seek, seeker_Copy, seeker_Unwrap, seeker_ref, seekerCommon_BytesRemaining,
      readerAt_BytesRemaining, readerAt_Seek, readerAt_Copy, readerAt_Unwrap, readerAt_ref, readerAtCommon_BytesRemaining,
      buffered_BytesRemaining, buffered_Copy, buffered_Unwrap, buffered_ref; nx.
Qed.

Section Panics2.
Context {W : Type} (E : env W) (P : hazard W).
Implicit Types h : heap W.

(** ** Seekable Bodies and constructors: nothing has been stored *)
Definition xreader (c : xcall) : option rid :=
  match c with XRead r _ | XReadAt r _ _ | XSeek r _ _ | XStat r => Some r | XClose _ => None end.
Definition near h (r : rid) (hs : heap W) (c : xcall) : Prop :=
  xreader c = Some r /\ (hs = h \/ exists off wh x, act_step E h (CallSeek r off wh) = Some (hs, x)).

Lemma stops_ret Q {A} (a : A) h : stops E Q h (Ret a).
Proof. done. Qed.
Lemma stops_seeker_readAt cm r p off h : sc_s cm = Some r -> stops E (near h r) h (seeker_readAt cm p off).
Proof.
  intros Hr. unfold seeker_readAt. rewrite Hr. cbn [of_option bind perform stops call_of].
  split; [split; [done|by left]|].
  destruct (act_step E h (CallSeek r off SeekStart)) as [[h1 [n err]]|] eqn:Ha; [|done].
  destruct err as [e|]; [done|]. cbn [bind perform stops call_of]. split; [split; [done|]; right; eauto|].
  destruct (act_step E h1 (CallRead r p)) as [[h2 [[n2 q] err]]|]; [|done].
  apply noext_stops. nx.
Qed.
Lemma stops_readerAt_readAt cm r p off h : rc_at cm = Some r -> stops E (near h r) h (readerAt_readAt cm p off).
Proof.
  intros Hr. unfold readerAt_readAt. rewrite Hr. cbn [of_option bind perform stops call_of].
  split; [split; [done|by left]|].
  destruct (act_step E h (CallReadAt r p off)) as [[h2 [[n2 q] err]]|]; [|done].
  apply noext_stops. nx.
Qed.

Lemma stops_run Q {A B} (m : prog A) (k : A -> prog B) h h1 x :
  run E h m = (h1, ORet x) -> noext m -> stops E Q h1 (k x) -> stops E Q h (bind m k).
Proof.
  intros Hr Hn Hk. apply stops_bind; [by apply noext_stops|]. intros h2 y. rewrite Hr. by intros [= <- <-].
Qed.
Lemma stops_opt Q {A B} e (o : option A) (k : A -> prog B) h :
  (forall x, o = Some x -> stops E Q h (k x)) -> stops E Q h (bind (of_option e o) k).
Proof. intros Hk. destruct o; [by apply Hk|done]. Qed.

Lemma stops_sk_Read h i b c cm r p :
  sk_open h i b c cm r -> stops E (near h r) h (seeker_Read i p).
Proof.
  intros [Hb Hncl Hc Hcm Hr Hoff Hlen]. unfold seeker_Read. apply stops_locked.
  eapply stops_run; [by apply run_ldSeeker|nx|]. rewrite Hncl. destruct (sb_err b); [done|].
  rewrite Hc. cbn [of_option bind]. apply stops_locked. eapply stops_run; [by apply run_ldSeekerC|nx|]. cbv zeta.
  apply stops_bind.
  - destruct (_ >? 0); [|done]. apply stops_opt. intros px _. apply stops_bind; [by apply stops_seeker_readAt|].
    intros h1 [[n q] e] _. done.
  - intros h1 [[n q] e] _. apply noext_stops. nx.
Qed.
Lemma stops_sk_ReadAt h i b c cm r p off :
  sk_open h i b c cm r -> stops E (near h r) h (seeker_ReadAt i p off).
Proof.
  intros [Hb Hncl Hc Hcm Hr Hoff Hlen]. unfold seeker_ReadAt. apply stops_locked.
  eapply stops_run; [by apply run_ldSeeker|nx|]. rewrite Hncl. destruct (_ <? 0); [done|].
  rewrite Hc. cbn [of_option bind]. apply stops_locked. eapply stops_run; [by apply run_ldSeekerC|nx|]. cbv zeta.
  apply stops_bind.
  - destruct (_ >? 0); [|done]. apply stops_opt. intros px _. apply stops_bind; [by apply stops_seeker_readAt|].
    intros h1 [[n q] e] _. done.
  - intros h1 [[n q] e] _. done.
Qed.
Lemma stops_ra_Read h i b c cm r p :
  ra_open h i b c cm r -> stops E (near h r) h (readerAt_Read i p).
Proof.
  intros [Hb Hncl Hc Hcm Hr Hat Hoff Hlen]. unfold readerAt_Read. apply stops_locked.
  eapply stops_run; [by apply run_ldReaderAt|nx|]. rewrite Hncl. destruct (rb_err b); [done|].
  rewrite Hc. cbn [of_option bind]. apply stops_locked. eapply stops_run; [by apply run_ldReaderAtC|nx|]. cbv zeta.
  apply stops_bind.
  - destruct (_ >? 0); [|done]. apply stops_opt. intros px _. apply stops_bind; [by apply stops_readerAt_readAt|].
    intros h1 [[n q] e] _. done.
  - intros h1 [[n q] e] _. apply noext_stops. nx.
Qed.
Lemma stops_ra_ReadAt h i b c cm r p off :
  ra_open h i b c cm r -> stops E (near h r) h (readerAt_ReadAt i p off).
Proof.
  intros [Hb Hncl Hc Hcm Hr Hat Hoff Hlen]. unfold readerAt_ReadAt. apply stops_locked.
  eapply stops_run; [by apply run_ldReaderAt|nx|]. rewrite Hncl. destruct (_ <? 0); [done|].
  rewrite Hc. cbn [of_option bind]. apply stops_locked. eapply stops_run; [by apply run_ldReaderAtC|nx|]. cbv zeta.
  apply stops_bind.
  - destruct (_ >? 0); [|done]. apply stops_opt. intros px _. apply stops_bind; [by apply stops_readerAt_readAt|].
    intros h1 [[n q] e] _. done.
  - intros h1 [[n q] e] _. done.
Qed.

Lemma stops_From h r len : stops E (near h r) h (FromReaderAndLength r len).
Proof.
  unfold FromReaderAndLength. cbn [perform bind stops call_of act_step]. split; [done|].
  set (cp := ev_caps E r). set (l0 := if len <? 0 then -1 else len).
  assert (Hnew : forall (l : Z) h1, stops E (near h r) h1
    (if cp_readerat cp && (l >=? 0) then
        c <- perform (NewC (CReaderAt {| rc_r := Some r; rc_at := Some r; rc_length := l; rc_refcnt := 0 |})) ;;
        b <- perform (NewB (BReaderAt {| rb_common := Some c; rb_err := None; rb_offset := 0; rb_closed := false |})) ;;
        readerAt_ref c ;;;
        Ret (inl b)
      else if cp_seeker cp && (l >=? 0) then
        c <- perform (NewC (CSeeker {| sc_s := Some r; sc_length := l; sc_refcnt := 0 |})) ;;
        b <- perform (NewB (BSeeker {| sb_common := Some c; sb_err := None; sb_offset := 0; sb_closed := false |})) ;;
        seeker_ref c ;;;
        Ret (inl b)
      else
        c <- perform (NewC (CBuffered {| bc_r := Some r; bc_err := None; bc_bodies := Some []; bc_bytes := [];
                                         bc_length := l; bc_start := 0; bc_refcnt := 0 |})) ;;
        b <- perform (NewB (BBuffered {| bb_common := Some c; bb_offset := 0; bb_eof := false; bb_closed := false |})) ;;
        buffered_ref c b ;;;
        Ret (inl b : nat + error))).
  { intros l h1. apply noext_stops. unfold readerAt_ref, seeker_ref, buffered_ref. nx. }
  apply stops_bind.
  - destruct (_ && _); [|done]. cbn [perform bind stops call_of]. split; [split; [done|by left]|].
    destruct (act_step E h (CallStat r)) as [[h1 [n [e|]]]|]; [done| |done]. apply noext_stops. nx.
  - intros h1 st Hst. destruct st as [l|e]; [|done].
    assert (Hl : (cp_seeker cp && (l <? 0)) = true -> h1 = h).
    { intros Hx. revert Hst. destruct (cp_file cp && (l0 <? 0)); [|intros [= <- _]; done].
      cbn [perform bind run]. destruct (act_step E h (CallStat r)) as [[h2 [n [e|]]]|]; [done| |done].
      destruct (n >=? 0) eqn:Hn; [|done]. cbn. intros [= <- <-]. lia. }
    apply stops_bind.
    + destruct (cp_seeker cp && (l <? 0)); [|done]. rewrite (Hl eq_refl). cbn [perform bind stops call_of].
      split; [split; [done|by left]|].
      destruct (act_step E h (CallSeek r 0 SeekEnd)) as [[h2 [n [e|]]]|] eqn:Ha; [done| |done].
      destruct (n >=? 0); [|done]. cbn [assert bind perform stops call_of]. split; [split; [done|]; right; eauto|].
      destruct (act_step E h2 (CallSeek r 0 SeekStart)) as [[h3 [n3 [e|]]]|]; done.
    + intros h2 [l2|e] _; [|done]. apply Hnew.
Qed.

(** ** Streaming Bodies: less fuel stops in the same heap *)
Definition is_read (c : xcall) : Prop := match c with XRead _ _ => True | _ => False end.
Definition cuts {A} h (m : nat -> prog A) (n : nat) : Prop :=
  stops E (fun hs c => is_read c /\ exists n', run E h (m n') = (hs, OSpin)) h (m n).

Lemma cuts_none {A} h (m : nat -> prog A) n : noext (m n) -> cuts h m n.
Proof. apply noext_stops. Qed.
Lemma cuts_pre {A B} h (m : prog A) (k : nat -> A -> prog B) n :
  noext m -> (forall h1 x, run E h m = (h1, ORet x) -> cuts h1 (fun n => k n x) n) -> cuts h (fun n => bind m (k n)) n.
Proof.
  intros Hn Hk. apply stops_bind; [by apply noext_stops|]. intros h1 x Hr. eapply stops_impl; [|by apply Hk].
  intros hs c [Hc [n' Hn']]. split; [done|]. exists n'. by rewrite run_bind, Hr.
Qed.
Lemma cuts_in {A B} h (m : nat -> prog A) (k : A -> prog B) n :
  cuts h m n -> (forall x, noext (k x)) -> cuts h (fun n => bind (m n) k) n.
Proof.
  intros Hm Hk. apply stops_bind; [|intros; by apply noext_stops]. eapply stops_impl; [|exact Hm].
  intros hs c [Hc [n' Hn']]. split; [done|]. exists n'. by rewrite run_bind, Hn'.
Qed.
Lemma cuts_locked {A} h l (m : nat -> prog A) n : cuts h m n -> cuts h (fun n => locked l (m n)) n.
Proof.
  intros Hm. apply stops_locked. eapply stops_impl; [|exact Hm].
  intros hs c [Hc [n' Hn']]. split; [done|]. exists n'. by rewrite run_locked.
Qed.
Lemma cuts_fill c n : forall h bufNew bufLen want b e,
  cuts h (fun n => buffered_fill n c bufNew bufLen want b e) n.
Proof.
  induction n as [|n IH]; intros h bufNew bufLen want b e; unfold cuts.
  - cbn. by destruct (want >? 0).
  - destruct (want >? 0) eqn:Hw; [|cbn [buffered_fill]; rewrite Hw; done].
    assert (Hstop : forall hs, (exists h1 cm r buf, run E h (ldBufferedC c) = (h1, ORet cm) /\ bc_r cm = Some r /\ slice bufNew bufLen (bufLen + want) = Some buf /\ hs = h1) ->
      exists n', run E h (buffered_fill n' c bufNew bufLen want b e) = (hs, OSpin)).
    { intros hs (h1 & cm & r & buf & Hr & _ & _ & ->). exists O. cbn. rewrite Hw.
      revert Hr. cbn. destruct (h_c h !! c) as [[| |x]|]; cbn; try done. by intros [= <- _]. }
    cbn [buffered_fill]. rewrite Hw. cbv zeta. apply stops_bind; [apply noext_stops; nx|]. intros h1 cm Hcm.
    assert (h1 = h) as ->. { revert Hcm. cbn. destruct (h_c h !! c) as [[| |x]|]; cbn; try done. by intros [= <- _]. }
    apply stops_opt. intros r Hr. apply stops_opt. intros buf Hbuf. cbn [perform bind stops call_of].
    split. { split; [done|]. apply Hstop. eauto 10. }
    destruct (act_step E h (CallRead r buf)) as [[h2 [[k q] err]]|] eqn:Ha; [|done].
    apply stops_bind; [apply noext_stops; nx|]. intros h3 [] Hh3.
    apply stops_bind; [apply noext_stops; nx|]. intros h4 [] Hh4.
    apply stops_bind; [apply noext_stops; nx|]. intros h5 bs Hh5.
    destruct err as [er|]; [apply noext_stops; nx|]. split; [done|]. destruct (act_step E h5 _) as [[h6 []]|] eqn:Hh6; [|done].
    eapply stops_impl; [|apply IH]. intros hs c' [Hc' [n' Hn']]. split; [done|]. exists (S n').
    cbn [buffered_fill]. rewrite Hw. cbv zeta. rewrite run_bind, Hcm. rewrite Hr. cbn [of_option bind]. rewrite Hbuf. cbn [of_option bind perform].
    cbn [run]. rewrite Ha. rewrite run_bind, Hh3, run_bind, Hh4, run_bind, Hh5. cbn [bind perform run]. rewrite Hr in Hh6. rewrite Hh6. exact Hn'.
Qed.
Lemma cuts_fetch c n h x y z : cuts h (fun n => buffered_fetch n c x y z) n.
Proof.
  unfold buffered_fetch. apply cuts_pre; [nx|]. intros h1 cm _.
  destruct (match bc_err cm with None => z >? y | Some _ => false end); [|by apply cuts_none].
  cbv zeta. apply (cuts_pre _ (if bc_length cm >=? 0 then _ else _) (fun n x => let '(_, _) := x in _)); [nx|]. intros h2 [want eof] _.
  destruct (_ <? 0); [by apply cuts_none|].
  apply (cuts_pre _ (of_option _ _) (fun n x => _)); [nx|]. intros h3 old _.
  apply (cuts_pre _ (of_option _ _) (fun n x => _)); [nx|]. intros h4 bn _.
  apply (cuts_pre _ (of_option _ _) (fun n x => _)); [nx|]. intros h5 bs _.
  apply (cuts_pre _ (perform _) (fun n x => _)); [nx|]. intros h6 [] _.
  apply (cuts_in _ (fun n => _) (fun x => _)); [apply cuts_fill|nx].
Qed.
Lemma cuts_Read i p n h : cuts h (fun n => buffered_Read n i p) n.
Proof.
  unfold buffered_Read. apply cuts_locked. apply cuts_pre; [nx|]. intros h1 b _.
  destruct (bb_closed b); [by apply cuts_none|].
  apply (cuts_pre _ (of_option _ _) (fun n x => _)); [nx|]. intros h2 c _. apply cuts_locked. apply cuts_pre; [nx|]. intros h3 cm _.
  destruct (bb_eof b); [by apply cuts_none|]. cbv zeta.
  apply (cuts_pre _ (assert _) (fun n x => _)); [nx|]. intros h4 [] _.
  apply (cuts_in _ (fun n => _) (fun x => _)); [apply cuts_fetch|]. intros eb. nx; first [apply nx_advance|apply nx_drop|apply nx_updateStart_loop].
Qed.


(** ** What a panicking call leaves behind *)

(** The Reader a command calls. *)
Definition calls_reader h (c : cmd) (r : rid) : Prop :=
  wraps r c \/
  exists i f o k, c = Call i f /\ may_panic c /\ h_b h !! i = Some o /\ seekable_kind o = true /\ body_common o = Some k /\ reader_at h k = Some r.

Inductive panicked h (c : cmd) (h' : heap W) (e : panic) : Prop :=
| pk_near r hs call w :
    calls_reader h c r -> near h r hs call -> P (h_w hs) call = Some (w, e) -> h' = set_w hs w -> panicked h c h' e
| pk_fetch fuel' i p b hs call w :
    c = Call i (Read p) -> h_b h !! i = Some (BBuffered b) -> exec E fuel' h c = (hs, OSpin) ->
    P (h_w hs) call = Some (w, e) -> h' = set_w hs w -> panicked h c h' e.

Lemma stops_rread Q (m : prog rdres) h : stops E Q h m -> stops E Q h (rread m).
Proof. intros Hm. apply stops_bind; [done|]. intros h1 [[? ?] ?] _. done. Qed.

Lemma xexec_cases fuel h c h' o :
  Verif.Wf.wf h -> spares_close P -> xexec E P fuel h c = (h', o) ->
  exec E fuel h c = (h', o) \/ exists e, o = OPanic e /\ panicked h c h' e.
Proof.
  intros Hwf Hsp. unfold xexec, exec.
  assert (Hnx : noext (cmd_prog fuel h c) -> xrun E P h (cmd_prog fuel h c) = (h', o) -> run E h (cmd_prog fuel h c) = (h', o)).
  { intros Hn Hx. destruct (xrun_cases E P (fun _ _ => False) _ h h' o (noext_stops E _ _ _ Hn) Hx) as [Hr|(? & ? & ? & ? & [] & _)]. done. }
  assert (Hno : stops E (fun _ _ => False) h (cmd_prog fuel h c) -> xrun E P h (cmd_prog fuel h c) = (h', o) -> run E h (cmd_prog fuel h c) = (h', o)).
  { intros Hs Hx. destruct (xrun_cases E P _ _ h h' o Hs Hx) as [Hr|(? & ? & ? & ? & [] & _)]. done. }
  assert (Hnear : forall r, calls_reader h c r -> stops E (near h r) h (cmd_prog fuel h c) -> xrun E P h (cmd_prog fuel h c) = (h', o) ->
    run E h (cmd_prog fuel h c) = (h', o) \/ exists e, o = OPanic e /\ panicked h c h' e).
  { intros r Hc Hs Hx. destruct (xrun_cases E P _ _ h h' o Hs Hx) as [Hr|(hs & call & w & e & Hq & HP & -> & ->)]; [by left|].
    right. exists e. split; [done|]. by eapply pk_near. }
  destruct c as [i f| | |d|s|r|r len|b].
  2-5: intros Hx; left; apply Hnx; [cbn [cmd_prog]; unfold rnew, AlreadyClosed, FromBytes, FromString, Empty; nx|done].
  2: apply (Hnear r); [left; by left|]; apply stops_bind; [apply stops_From|intros h1 [] _; done].
  2: apply (Hnear r); [left; right; eauto|]; apply stops_bind; [apply stops_From|intros h1 [] _; done].
  2: intros Hx; left; apply Hnx; [cbn [cmd_prog]; unfold rnew, FromReader_Body; destruct (h_b h !! b); nx|done].
  destruct (h_b h !! i) as [b|] eqn:Hi; cbn [cmd_prog] in *; rewrite Hi in *; [|intros Hx; left; by apply Hnx].
  destruct (own_means b f) eqn:Hom; [intros Hx; left; apply Hnx; [by apply nx_method|done]|].
  assert (Hclose : f = Close -> xrun E P h (method fuel b i f) = (h', o) -> run E h (method fuel b i f) = (h', o)).
  { intros -> Hx. assert (Hs : stops E (fun _ c => exists r, c = XClose r) h (method fuel b i Close)).
    { clear. destruct b as [|b|b|b|b|b]; try (by apply noext_stops, nx_method); cbn [method]; unfold rerr; apply stops_bind; try (intros; done);
        unfold seeker_Close, readerAt_Close, buffered_Close, seeker_unref, readerAt_unref, buffered_unref;
        repeat first [ progress (intros; cbv zeta) | apply stops_locked
          | apply stops_bind; [first [apply noext_stops; nx; first [apply nx_drop|apply nx_updateStart_loop] | apply noext_stops; solve [nx] | idtac]|]
          | match goal with |- stops _ _ _ (match ?x with _ => _ end) => destruct x end
          | solve [cbn; repeat (split; [eauto|]); repeat case_match; eauto ] ]. }
    destruct (xrun_cases E P _ _ h h' o Hs Hx) as [Hr|(hs & call & w & e & [r ->] & HP & _)]; [done|]. by rewrite Hsp in HP. }
  destruct b as [|b|b|b|b|b]; try done; destruct f; try done; try (intros Hx; left; by apply Hclose).
  - destruct (sb_closed b) eqn:Hcl.
    { intros Hx. left. apply Hno; [|done]. apply stops_rread. unfold seeker_Read. apply stops_locked.
      eapply stops_run; [by apply run_ldSeeker|nx|]. by rewrite Hcl. }
    destruct (sk_open_wf h i b Hwf Hi Hcl) as (k & cm & r & Ho). apply (Hnear r); [|by eapply stops_rread, stops_sk_Read].
    right. exists i, (Read p), (BSeeker b), k. split; [done|]. split; [done|]. split; [done|]. split; [done|]. split; [apply Ho|].
    unfold reader_at. rewrite (sk_cm _ _ _ _ _ _ Ho). apply Ho.
  - destruct (sb_closed b) eqn:Hcl.
    { intros Hx. left. apply Hno; [|done]. apply stops_rread. unfold seeker_ReadAt. apply stops_locked.
      eapply stops_run; [by apply run_ldSeeker|nx|]. by rewrite Hcl. }
    destruct (sk_open_wf h i b Hwf Hi Hcl) as (k & cm & r & Ho). apply (Hnear r); [|by eapply stops_rread, stops_sk_ReadAt].
    right. exists i, (ReadAt p offset), (BSeeker b), k. split; [done|]. split; [done|]. split; [done|]. split; [done|]. split; [apply Ho|].
    unfold reader_at. rewrite (sk_cm _ _ _ _ _ _ Ho). apply Ho.
  - destruct (rb_closed b) eqn:Hcl.
    { intros Hx. left. apply Hno; [|done]. apply stops_rread. unfold readerAt_Read. apply stops_locked.
      eapply stops_run; [by apply run_ldReaderAt|nx|]. by rewrite Hcl. }
    destruct (ra_open_wf h i b Hwf Hi Hcl) as (k & cm & r & Ho). apply (Hnear r); [|by eapply stops_rread, stops_ra_Read].
    right. exists i, (Read p), (BReaderAt b), k. split; [done|]. split; [done|]. split; [done|]. split; [done|]. split; [apply Ho|].
    unfold reader_at. rewrite (ra_cm _ _ _ _ _ _ Ho). apply Ho.
  - destruct (rb_closed b) eqn:Hcl.
    { intros Hx. left. apply Hno; [|done]. apply stops_rread. unfold readerAt_ReadAt. apply stops_locked.
      eapply stops_run; [by apply run_ldReaderAt|nx|]. by rewrite Hcl. }
    destruct (ra_open_wf h i b Hwf Hi Hcl) as (k & cm & r & Ho). apply (Hnear r); [|by eapply stops_rread, stops_ra_ReadAt].
    right. exists i, (ReadAt p offset), (BReaderAt b), k. split; [done|]. split; [done|]. split; [done|]. split; [done|]. split; [apply Ho|].
    unfold reader_at. rewrite (ra_cm _ _ _ _ _ _ Ho). apply Ho.
  - intros Hx. assert (Hs : stops E (fun hs c => is_read c /\ exists n', run E h (method n' (BBuffered b) i (Read p)) = (hs, OSpin)) h (method fuel (BBuffered b) i (Read p))).
    { cbn [method]. apply stops_rread. eapply stops_impl; [|apply cuts_Read]. intros hs c [Hc [n' Hn']]. split; [done|]. exists n'. unfold rread. by rewrite run_bind, Hn'. }
    destruct (xrun_cases E P _ _ h h' o Hs Hx) as [Hr|(hs & call & w & e & [_ [n' Hn']] & HP & -> & ->)]; [by left|].
    right. exists e. split; [done|]. eapply (pk_fetch h _ _ _ n' i p b hs call w); try done. unfold exec. cbn [cmd_prog]. by rewrite Hi.
Qed.

(** ** Invariants across a panic *)
Lemma near_heap h r hs call :
  near h r hs call -> exists evs, h_b hs = h_b h /\ h_c hs = h_c h /\ h_log hs = h_log h ++ evs /\
    total_read evs = 0 /\ Forall not_close evs /\ Forall (fun ev => ev_reader ev = Some r) evs.
Proof.
  intros [_ [->|(off & wh & x & Hx)]].
  - exists []. rewrite app_nil_r. done.
  - cbn in Hx. destruct (ev_seek E (h_w h) r off wh) as [w1 [n err]]. injection Hx as <- _. eexists [_]. cbn. repeat split; repeat constructor.
Qed.
Lemma wf_set_w h w : Verif.Wf.wf h -> Verif.Wf.wf (set_w h w).
Proof. intros [H0 H1 H2 H3]. constructor; done. Qed.
Lemma near_wf h r hs call : Verif.Wf.wf h -> near h r hs call -> Verif.Wf.wf hs.
Proof.
  intros [H0 H1 H2 H3] Hn. apply near_heap in Hn as (evs & Hb & Hc & Hl & Ht & _). constructor; rewrite ?Hb, ?Hc; try done.
  intros c x Hx. rewrite Hl, total_read_app, Ht, Z.add_0_r. by eapply H3.
Qed.
Lemma panicked_wf h c h' e : go_env E -> go_cmd c -> Verif.Wf.wf h -> feasible h' -> panicked h c h' e -> Verif.Wf.wf h'.
Proof.
  intros Hge Hgo Hwf Hf [r hs call w Hc Hn HP ->|fuel' i p b hs call w -> Hb Hex HP ->]; apply wf_set_w.
  - by eapply near_wf.
  - by eapply exec_wf.
Qed.
Lemma panicked_feasible h c h' e : panicked h c h' e -> feasible h' -> feasible h.
Proof.
  intros [r hs call w Hc Hn HP ->|fuel' i p b hs call w -> Hb Hex HP ->] Hf.
  - apply near_heap in Hn as (evs & Hb & _ & Hl & Ht & _). unfold feasible in *. cbn in Hf. rewrite Hb, Hl, total_read_app, Ht, Z.add_0_r in Hf. done.
  - by eapply exec_feasible.
Qed.
Lemma panicked_raised h c h' e : panicked h c h' e -> raised P e /\ may_panic c.
Proof.
  intros [r hs call w Hc Hn HP ->|fuel' i p b hs call w -> Hb Hex HP ->]; (split; [by eexists _, _, _|]); [|done].
  destruct Hc as [[->|[n ->]]|(i & f & o & k & -> & Hm & _)]; done.
Qed.

(** One step. *)
Lemma xexec_wf fuel h c h' o :
  go_env E -> spares_close P -> Verif.Wf.wf h -> go_cmd c -> xexec E P fuel h c = (h', o) -> feasible h' -> Verif.Wf.wf h'.
Proof.
  intros Hge Hsp Hwf Hgo Hx Hf. destruct (xexec_cases fuel h c h' o Hwf Hsp Hx) as [Hex|(e & -> & Hp)]; [by eapply exec_wf|by eapply panicked_wf].
Qed.
Lemma xexec_feasible fuel h c h' o :
  spares_close P -> Verif.Wf.wf h -> xexec E P fuel h c = (h', o) -> feasible h' -> feasible h.
Proof.
  intros Hsp Hwf Hx Hf. destruct (xexec_cases fuel h c h' o Hwf Hsp Hx) as [Hex|(e & -> & Hp)]; [by eapply exec_feasible|by eapply panicked_feasible].
Qed.
End Panics2.
