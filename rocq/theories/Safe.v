(** * What Serve writes on a client that can fail (proofs) *)
From stdpp Require Import gmap.
From Coq Require Import ZifyBool.
From Verif Require Import RespFacts SafeSpec Post Quiet Preserve ServeProofs WriterProofs ServeMain Own HeapRun Deliver DeliverMain.

(** ** Programs that call no Writer and store no io.WriterTo *)
Fixpoint mild {A} (m : prog A) : Prop :=
  match m with
  | Ret _ | Panic _ | Spin => True
  | Do a k =>
      match a in act Y return (Y -> prog A) -> Prop with
      | CallWrite _ _ => fun _ => False
      | StoreB _ b => fun k => is_WriterTo b = false /\ forall x, mild (k x)
      | _ => fun k => forall x, mild (k x)
      end k
  end.
Lemma mild_bind {A B} (m : prog A) (k : A -> prog B) : mild m -> (forall a, mild (k a)) -> mild (bind m k).
Proof.
  induction m as [a|e| |X a k' IH]; intros Hm Hk; cbn in *; auto.
  destruct a; try (intros y; by apply IH); try done. destruct Hm as [H1 H2]. split; [done|]. intros y. by apply IH.
Qed.
Lemma mild_deferred {A} (m : prog A) l : mild m -> mild (deferred m (Unlock l)).
Proof. induction m as [a|e| |X a k' IH]; cbn; auto. destruct a; auto. intros [H1 H2]. auto. Qed.
Lemma mild_locked {A} (m : prog A) l : mild m -> mild (locked l m).
Proof. intros H. cbn. intros _. by apply mild_deferred. Qed.
Ltac mild1 :=
  match goal with
  | |- mild (locked _ _) => apply mild_locked
  | |- mild (bind _ _) => apply mild_bind; [|intros ?]
  | |- mild (of_option _ ?o) => destruct o; exact I
  | |- mild (match ?x with _ => _ end) => destruct x
  | |- mild (let '(_, _) := ?x in _) => destruct x
  | |- mild (Ret _) => exact I
  | |- mild (Panic _) => exact I
  | |- mild Spin => exact I
  | |- mild (assert ?x) => destruct x; exact I
  | |- mild (perform _) => cbn; try done
  | |- mild (ldSeeker _) => cbn; by intros []
  | |- mild (ldReaderAt _) => cbn; by intros []
  | |- mild (ldBuffered _) => cbn; by intros []
  | |- mild (ldSeekerC _) => cbn; by intros []
  | |- mild (ldReaderAtC _) => cbn; by intros []
  | |- mild (ldBufferedC _) => cbn; by intros []
  end.
Ltac mm := cbv zeta; repeat (mild1; cbv zeta).
Lemma mild_fill fuel c bufNew bufLen num bb eb : mild (buffered_fill fuel c bufNew bufLen num bb eb).
Proof. revert bufNew bufLen num eb. induction fuel; intros; cbn [buffered_fill]; mm. apply IHfuel. Qed.
Lemma mild_update l b r : mild (updateStart_loop l b r).
Proof. revert b r. induction l; intros; cbn [updateStart_loop]; mm; apply IHl. Qed.
Lemma mild_method fuel o i f : is_WriterTo o = false -> mild (method fuel o i f).
Proof.
  intros Ho. destruct f; destruct o; try done; cbn [method]; unfold rint, rread, rerr, rseek, rbody, rreader; qu;
    unfold seeker_readAt, readerAt_readAt, seeker_unref, readerAt_unref, buffered_unref, buffered_fetch, buffered_advance, buffered_drop, buffered_updateStart;
    repeat (first [apply mild_fill|apply mild_update|mild1]; cbv zeta).
Qed.

Section Still.
Context {V : Type} (U : uenv V) (fuel : nat).
Notation E := (wenv U).
Definition still (w w' : wst V) : Prop := v_objs w' = v_objs w /\ v_log w' = v_log w.
Definition settled (i : nat) (h h' : heap (wst V)) : Prop :=
  still (h_w h) (h_w h') /\ ((exists b, h_b h !! i = Some b /\ is_WriterTo b = false) -> exists b, h_b h' !! i = Some b /\ is_WriterTo b = false).
Lemma mild_run i {A} (m : prog A) : mild m -> forall h, settled i h (xrun E (whazard U) h m).1.
Proof.
  induction m as [a|e| |X a k IH]; intros Hm h; cbn [xrun]; try (split; done).
  destruct (hits (whazard U) h a) as [[w e]|] eqn:Hh.
  { unfold hits, whazard in Hh. destruct (call_of a); [|done]. destruct (u_hazard _ _ _) as [[v e']|]; [|done]. injection Hh as <- <-. split; done. }
  destruct (act_step E h a) as [[h1 x]|] eqn:Ha; [|split; done].
  assert (Hk : mild (k x)) by (destruct a; cbn in Hm; try done; by destruct Hm).
  assert (H1 : settled i h h1).
  { clear IH Hk Hh. destruct a; cbn in Ha, Hm; try done; repeat case_match; simplify_eq/=; split; cbn; try done.
    - intros (bx & Hbx & Hw). destruct (decide (i = i0)) as [->|Hne].
      + rewrite list_lookup_insert by (by eapply lookup_lt_Some). destruct Hm as [Hm _]. eauto.
      + rewrite list_lookup_insert_ne by done. eauto.
    - intros (bx & Hbx & Hw). rewrite lookup_app_l by (by eapply lookup_lt_Some). eauto. }
  destruct (IH x Hk h1) as [[I1 I2] I3]. destruct H1 as [[J1 J2] J3]. split; [split; congruence|auto].
Qed.
Lemma mild_call h i b f : h_b h !! i = Some b -> is_WriterTo b = false -> settled i h (uexec U fuel h (Call i f)).1.
Proof. intros Hb Hw. unfold uexec, xexec, cmd_prog. rewrite Hb. by apply mild_run, mild_method. Qed.
Lemma quiet_still {A} (Q : A -> Prop) (m : prog A) : quiet Q m -> forall h, still (h_w h) (h_w (xrun E (whazard U) h m).1).
Proof.
  revert Q. induction m as [a|e| |X a k IH]; intros Q Hm h; cbn [xrun]; try done.
  destruct (hits (whazard U) h a) as [[w e]|] eqn:Hh.
  { unfold hits, whazard in Hh. destruct (call_of a); [|done]. destruct (u_hazard _ _ _) as [[v e']|]; [|done]. injection Hh as <- <-. done. }
  destruct (act_step E h a) as [[h1 x]|] eqn:Ha; [|done].
  assert (exists Q', quiet Q' (k x)) as [Q' Hk] by (destruct a; cbn in Hm; try done; eauto).
  assert (H1 : still (h_w h) (h_w h1)).
  { clear IH Hk Hh. destruct a; cbn in Ha, Hm; try done; repeat case_match; simplify_eq/=; done. }
  destruct (IH x Q' Hk h1) as [I1 I2]. destruct H1 as [J1 J2]. split; congruence.
Qed.
Lemma quiet_call h i f : (forall w, f <> WriteTo w) -> still (h_w h) (h_w (uexec U fuel h (Call i f)).1).
Proof.
  intros Hf. unfold uexec, xexec, cmd_prog. destruct (h_b h !! i) as [b|]; [|done]. by eapply quiet_still, q_method.
Qed.
End Still.

(** ** Writing *)
Section Put.
Context {V : Type} (U : uenv V) (fuel : nat) (u : uid) (k : wid).
Notation E := (wenv U).
(** [k] is the client [u] or a Writer that has sent its status; [q]: it sends no
    body. *)
Definition stands (q : bool) (w : wst V) : Prop :=
  match v_objs w !! k with
  | Some (WRaw u') => u' = u /\ q = false
  | Some (WWrap x) => ww_next x = u /\ ww_status x <> 0 /\ q = ww_isHEAD x || (ww_status x =? 204)
  | _ => False
  end.
Lemma stands_still q w w' : stands q w -> still w w' -> stands q w'.
Proof. intros H [H1 _]. unfold stands. by rewrite H1. Qed.
Lemma write_k q w p w' res : stands q w -> any_Write U k p w = (w', res) ->
  stands q w' /\
  if q then w' = w /\ res = inl (zlen p, None) else
  exists by_ res0 v v', v_log w' = v_log w ++ [UWrite by_ u p res0] /\ ev_write (u_env U) v u p = (v', res0) /\ forall x, res = inl x -> res0 = inl x.
Proof.
  intros Hs. pose proof Hs as Hs0. unfold stands in Hs0. unfold any_Write. destruct (v_objs w !! k) as [[|u'|x]|] eqn:Hk; try done.
  - destruct Hs0 as [-> ->]. unfold raw_Write. destruct (ev_write _ _ _ _) as [v' res0] eqn:Hw. intros [= <- <-]. split.
    + unfold stands. cbn. by rewrite Hk.
    + eexists None, res0, _, v'. split; [done|]. split; [exact Hw|]. done.
  - destruct Hs0 as (Hn & Hst & Hq). unfold wrap_Write, wbind at 1. rewrite (maybe_noop U k w x) by done. unfold wbind at 1, wget at 1. rewrite Hk.
    change (ww_status x =? StatusNoContent) with (ww_status x =? 204). rewrite <- Hq. destruct q; [intros [= <- <-]; done|].
    unfold wbind at 1, raw_Write. rewrite Hn. destruct (ev_write _ _ _ _) as [v' res0] eqn:Hw. destruct res0 as [[n err]|e].
    2: { intros [= <- <-]. split; [unfold stands; cbn; by rewrite Hk|]. eexists _, _, _, v'. split; [done|]. split; [exact Hw|]. done. }
    unfold wbind at 1, wassert. destruct (n >=? 0); cbn.
    2: { intros [= <- <-]. split; [unfold stands; cbn; by rewrite Hk|]. eexists _, _, _, v'. split; [done|]. split; [exact Hw|]. done. }
    unfold wbind, wget. cbn. rewrite Hk. cbn. intros [= <- <-]. split.
    + unfold stands. cbn. rewrite list_lookup_insert by (by eapply lookup_lt_Some). by destruct err.
    + eexists _, _, _, v'. split; [done|]. split; [exact Hw|]. done.
Qed.
Lemma still_log (w w' : wst V) : still w w' -> v_log w' = v_log w.
Proof. by intros []. Qed.
End Put.

(** ** What is known of the calls logged *)
Definition good (all ok : Prop) (q : bool) (R : bytes) (l : list uev) : Prop :=
  concat ((client_writes l).*1) `prefix_of` R /\ Forall in_full (removelast (client_writes l)) /\ (q = true -> client_writes l = []) /\
  (ok -> Forall in_full (client_writes l) /\ (all -> q = false -> by_readfrom l \/ concat ((client_writes l).*1) = R)).
Lemma writes_app l l' : client_writes (l ++ l') = client_writes l ++ client_writes l'.
Proof. apply omap_app. Qed.
Lemma good_nil (all ok : Prop) q R : (ok -> all -> q = false -> R = []) -> good all ok q R [].
Proof. intros H. split; [apply prefix_nil|]. split; [constructor|]. split; [done|]. intros Hok. split; [constructor|]. intros Ha Hq. right. symmetry. auto. Qed.
Lemma good_one (all ok : Prop) R by_ u p res : p `prefix_of` R -> (ok -> in_full (p, res) /\ (all -> p = R)) -> good all ok false R [UWrite by_ u p res].
Proof.
  intros Hp H. unfold good. cbn. rewrite app_nil_r. split; [done|]. split; [constructor|]. split; [done|]. intros Hok. destruct (H Hok) as [H1 H2]. split; [by constructor|]. auto.
Qed.
Lemma good_cons all ok R by_ u p res l : in_full (p, res) -> good all ok false R l -> good all ok false (p ++ R) (UWrite by_ u p res :: l).
Proof.
  intros Hp (H1 & H2 & _ & H3). unfold good. cbn. fold (client_writes l). split; [by apply prefix_app|]. split; [|split; [done|]].
  - destruct (client_writes l) as [|y ws]; [constructor|]. by constructor.
  - intros Hok. destruct (H3 Hok) as [H4 H5]. split; [by constructor|]. intros Ha Hq. destruct (H5 Ha Hq) as [(a & b & c & Hin)| -> ]; [left|by right].
    exists a, b, c. by right.
Qed.
Lemma good_none (all ok : Prop) q R l : client_writes l = [] -> (all -> q = false -> by_readfrom l) -> good all ok q R l.
Proof. intros H Hh. unfold good. rewrite H. cbn. split; [apply prefix_nil|]. split; [constructor|]. split; [done|]. intros _. split; [constructor|]. auto. Qed.
Lemma good_impl (all ok ok' : Prop) q R l : (ok' -> ok) -> good all ok q R l -> good all ok' q R l.
Proof. intros H (H1 & H2 & H3 & H4). split; [done|]. split; [done|]. auto. Qed.
Lemma good_pad all ok q R l0 l l1 : client_writes l0 = [] -> client_writes l1 = [] -> good all ok q R l -> good all ok q R (l0 ++ l ++ l1).
Proof.
  intros W0 W1 (H1 & H2 & H3 & H6). unfold good. rewrite !writes_app, W0, W1, app_nil_r. cbn. split; [done|]. split; [done|]. split; [done|]. intros Hok.
  destruct (H6 Hok) as [H4 H5]. split; [done|]. intros Ha Hq. destruct (H5 Ha Hq) as [(a & b & c & Hin)|?]; [left|by right]. exists a, b, c. set_solver.
Qed.

(** ** Sources *)
Section Tape.
Context {V : Type} (U : uenv V) (fuel : nat) (i : nat).
Notation E := (wenv U).
(** [I R h]: the Body [i] will give a beginning of [R] or, if [all] holds, all of
    it before it reports EOF. *)
Record tape (all : Prop) (vR : V -> V -> Prop) (I : bytes -> heap (wst V) -> Prop) : Prop := {
  tp_kind : forall R h, I R h -> exists b, h_b h !! i = Some b /\ is_WriterTo b = false;
  tp_world : forall R h w, I R h -> vR (v_v (h_w h)) (v_v w) -> I R (heap_w h w);
  tp_read : forall R h p h' n q err, I R h -> zlen p <= max_slice -> exec E fuel h (Call i (Read p)) = (h', ORet (RRead n q err)) -> feasible h' ->
    exists R', 0 <= n <= zlen q /\ R = take (Z.to_nat n) q ++ R' /\ I R' h' /\ (all -> err = Some EOF -> R' = []) }.

Context (all : Prop) (vR : V -> V -> Prop) (I : bytes -> heap (wst V) -> Prop).
Hypothesis Htp : tape all vR I.
Hypothesis Hcalm : calm U vR.
Hypothesis Hrefl : Reflexive vR.
Hypothesis Htrans : Transitive vR.
Context (u : uid) (k : wid).
Implicit Types s : state V.

Lemma copy_loop_safe n : forall R q buf t s s' o, I R (s_h s) -> stands u k q (world s) -> zlen buf <= max_slice ->
  copy_loop U fuel n k (Some i) buf t s = (s', o) -> feasible (s_h s') ->
  exists l, wlog s' = wlog s ++ l /\ good all (exists z, o = ORet (z, None)) q R l.
Proof.
  induction n as [|n IH]; intros R q buf t s s' o HI Hs Hm H Hf; cbn [copy_loop] in H; cbv zeta in H.
  { injection H as <- <-. exists []. rewrite app_nil_r. split; [done|]. apply good_nil. by intros []. }
  unfold ybind at 1 in H. rewrite body_call_some in H. pose proof (quiet_call U fuel (s_h s) i (Read buf) ltac:(done)) as Hst.
  destruct (uexec U fuel (s_h s) (Call i (Read buf))) as [h1 o1] eqn:Hex. cbn in Hst.
  assert (Hdone : forall e, (o1 = OPanic e \/ o1 = OSpin) -> exists l, v_log (h_w h1) = wlog s ++ l /\ good all False q R l).
  { intros e _. exists []. rewrite app_nil_r. split; [by apply still_log|]. apply good_nil. done. }
  destruct o1 as [r|e|].
  2: { injection H as <- <-. destruct (Hdone e) as (l & H1 & H2); [by left|]. exists l. split; [done|]. eapply good_impl; [|exact H2]. by intros []. }
  2: { injection H as <- <-. destruct (Hdone PNil) as (l & H1 & H2); [by right|]. exists l. split; [done|]. eapply good_impl; [|exact H2]. by intros []. }
  clear Hdone. apply uexec_ret in Hex.
  destruct r; try (injection H as <- <-; exists []; rewrite app_nil_r; split; [by apply still_log|]; apply good_nil; by intros []).
  assert (Hf1 : feasible h1).
  { match type of H with ?m (put_h s h1) = _ => assert (Hp : pres fR m) end.
    { pose proof (fun p t => f_copy_loop U fuel n k (Some i) p t). pose proof (@f_on_writer V). pose proof (@f_slice V). pres_go. }
    specialize (Hp (put_h s h1)). rewrite H in Hp. by apply Hp. }
  pose proof (read_len _ _ _ _ _ _ _ _ _ Hex) as Hl.
  destruct (tp_read _ _ _ Htp _ _ _ _ _ _ _ HI Hm Hex Hf1) as (R' & Hn & -> & HI' & Heof).
  assert (Hmp : zlen p <= max_slice) by (unfold zlen in *; lia).
  apply (stands_still u k _ _ (h_w h1)) in Hs; [|done].
  assert (Hsl : slice p 0 n0 = Some (take (Z.to_nat n0) p)).
  { rewrite slice_ok by lia. cbn. rewrite drop_0. do 2 f_equal. lia. }
  assert (Hz : zlen (take (Z.to_nat n0) p) = n0) by (unfold zlen in *; rewrite take_length; lia).
  assert (Hgo : forall s2 t2, I R' (s_h s2) -> stands u k q (world s2) ->
    match err with Some EOF => yret (t2, None) | Some e => yret (t2, Some e) | None => copy_loop U fuel n k (Some i) p t2 end s2 = (s', o) ->
    exists l, wlog s' = wlog s2 ++ l /\ good all (exists z, o = ORet (z, None)) q R' l).
  { clear H. intros s2 t2 HI2 Hs2 H. destruct err as [e|]; [|by eapply IH].
    exists []. rewrite app_nil_r. assert (Ho : s' = s2 /\ ((exists z, o = ORet (z, None)) -> e = EOF)) by (destruct e; injection H as <- <-; split; done || by intros [z Hz']).
    destruct Ho as [-> Ho]. split; [done|]. apply good_nil. intros Hok Ha _. apply Heof; [done|]. by rewrite Ho. }
  destruct (n0 >? 0) eqn:Hpos.
  - unfold ybind at 1 2 in H. rewrite Hsl in H. unfold ybind at 1, on_writer at 1 in H. cbn [s_h put_h] in H.
    destruct (any_Write U k (take (Z.to_nat n0) p) (h_w h1)) as [w' res] eqn:Hw.
    destruct (write_k U u k q _ _ _ _ Hs Hw) as [Hs' Hq].
    pose proof (wv_any_Write U vR Hrefl Htrans Hcalm k (take (Z.to_nat n0) p) (h_w h1)) as Hv. rewrite Hw in Hv. cbn in Hv.
    set (s2 := put_h (put_h s h1) (heap_w h1 w')) in *.
    assert (HI2 : I R' (s_h s2)) by (by apply (tp_world _ _ _ Htp)).
    destruct q.
    + destruct Hq as [-> ->]. rewrite Hz in H. replace ((n0 <? 0) || (n0 <? n0)) with false in H by lia. rewrite Z.eqb_refl in H. cbn in H.
      destruct (Hgo s2 _ HI2 Hs' H) as (l & H1 & H2). exists l. split; [rewrite H1; f_equal; by apply still_log|].
      apply good_none; [by apply H2|done].
    + destruct Hq as (by_ & res0 & v & v' & Hlog & Hev & Hres). assert (Hlog2 : wlog s2 = wlog s ++ [UWrite by_ u (take (Z.to_nat n0) p) res0]) by (unfold wlog, world; cbn; rewrite Hlog; f_equal; by apply still_log).
      assert (Hstop : s' = s2 /\ (forall z, o <> ORet (z, None)) -> exists l, wlog s' = wlog s ++ l /\ good all (exists z, o = ORet (z, None)) false (take (Z.to_nat n0) p ++ R') l).
      { intros [-> Ho]. eexists. split; [exact Hlog2|]. apply good_one; [by apply prefix_app_r|]. intros [z Hz']. by destruct (Ho z). }
      destruct res as [[nw ew]|e]; [|injection H as <- <-; by apply Hstop]. pose proof (Hres _ eq_refl) as ->.
      cbv beta iota zeta in H.
      destruct ((nw <? 0) || (n0 <? nw)) eqn:Hbad.
      { destruct ew; injection H as <- <-; by apply Hstop. }
      destruct ew as [e|]; [injection H as <- <-; by apply Hstop|].
      destruct (negb (n0 =? nw)) eqn:Hne; [injection H as <- <-; by apply Hstop|]. assert (nw = n0) as -> by lia.
      destruct (Hgo s2 _ HI2 Hs' H) as (l & H1 & H2). eexists. split; [rewrite H1, Hlog2, <- app_assoc; reflexivity|].
      apply good_cons; [|done]. unfold in_full. cbn. by rewrite Hz.
  - assert (n0 = 0) as -> by lia. cbn in H. destruct (Hgo (put_h s h1) _ HI' Hs H) as (l & H1 & H2). exists l. split; [rewrite H1; f_equal; by apply still_log|]. done.
Qed.

(** ReadFrom calls methods of the Body, but it writes nothing through [k]. *)
Definition reader_kind (h : heap (wst V)) : Prop := exists b, h_b h !! i = Some b /\ is_WriterTo b = false.
Lemma readfrom_loop_safe n : forall u0 last s s' o, reader_kind (s_h s) -> readfrom_loop U fuel n u0 (Some i) last s = (s', o) -> wlog s' = wlog s.
Proof.
  induction n as [|n IH]; intros u0 last s s' o Hk H; cbn [readfrom_loop] in H; cbv zeta in H; [by injection H as <- <-|].
  destruct (u_readfrom _ _ _ _) as [v [f|ans]]; [|by injection H as <- <-].
  rewrite body_call_some in H. set (s1 := put_h s _) in H. destruct Hk as (b & Hb & Hw).
  destruct (mild_call U fuel (s_h s1) i b f Hb Hw) as [[_ Hlog] Hk]. specialize (Hk ltac:(by exists b)).
  destruct (uexec U fuel (s_h s1) (Call i f)) as [h1 o1]. cbn in Hlog, Hk.
  destruct o1 as [r|e|]; [| |injection H as <- <-; exact Hlog]; apply IH in H; try done; rewrite H; exact Hlog.
Qed.
Lemma raw_ReadFrom_safe by_ u0 s s' o : reader_kind (s_h s) -> raw_ReadFrom U fuel by_ u0 (Some i) s = (s', o) ->
  exists l, wlog s' = wlog s ++ l /\ client_writes l = [] /\ by_readfrom l.
Proof.
  intros Hk. unfold raw_ReadFrom. unfold ybind at 1. cbn [of_opt yret]. unfold ybind at 1, log_u at 1. cbv zeta. set (s1 := put_h s _).
  assert (Hl1 : wlog s1 = wlog s ++ [UReadFrom by_ u0 i]) by done. unfold ybind at 1.
  destruct (readfrom_loop U fuel fuel u0 (Some i) None s1) as [s2 o2] eqn:Hr. apply readfrom_loop_safe in Hr; [|exact Hk].
  assert (Hone : s' = s2 -> exists l, wlog s' = wlog s ++ l /\ client_writes l = [] /\ by_readfrom l).
  { intros ->. eexists. split; [by rewrite Hr, Hl1|]. split; [done|]. exists by_, u0, i. set_solver. }
  destruct o2 as [x|e|]; [|intros [= <- <-]; by apply Hone..]. unfold ybind, log_u. cbv zeta. intros H.
  assert (Hl : wlog s' = wlog s2 ++ [UReadFromEnd by_ u0 x]) by (by destruct x; injection H as <- <-).
  eexists. split; [rewrite Hl, Hr, Hl1, <- app_assoc; reflexivity|]. split; [done|]. exists by_, u0, i. set_solver.
Qed.
Lemma discard_loop_safe n : forall buf t s s' o, discard_loop U fuel n (Some i) buf t s = (s', o) -> wlog s' = wlog s.
Proof.
  induction n as [|n IH]; intros buf t s s' o H; cbn [discard_loop] in H; cbv zeta in H; [by injection H as <- <-|].
  unfold ybind at 1 in H. rewrite body_call_some in H. pose proof (quiet_call U fuel (s_h s) i (Read buf) ltac:(done)) as [_ Hst].
  destruct (uexec U fuel (s_h s) (Call i (Read buf))) as [h1 o1]. cbn in Hst.
  destruct o1 as [r|e|]; [|injection H as <- <-; exact Hst..]. destruct r; try (injection H as <- <-; exact Hst).
  destruct err as [e|]; [destruct e; injection H as <- <-; exact Hst|]. apply IH in H. rewrite H. exact Hst.
Qed.
Lemma io_Copy_safe R q s s' o : I R (s_h s) -> stands u k q (world s) ->
  io_Copy U fuel k (Some i) s = (s', o) -> feasible (s_h s') ->
  exists l, wlog s' = wlog s ++ l /\ good all (exists z, o = ORet (z, None)) q R l.
Proof.
  intros HI Hs H Hf. unfold io_Copy in H. unfold ybind at 1 in H. destruct (tp_kind _ _ _ Htp _ _ HI) as (b & Hb & Hw).
  unfold lookup_b at 1 in H. rewrite Hb, Hw in H. unfold ybind at 1, lookup_w at 1 in H. fold (world s) in H.
  assert (Hk : reader_kind (s_h s)) by (by exists b).
  assert (Hnone : s' = s -> (forall z, o <> ORet (z, None)) -> exists l, wlog s' = wlog s ++ l /\ good all (exists z, o = ORet (z, None)) q R l).
  { intros -> Ho. exists []. rewrite app_nil_r. split; [done|]. apply good_nil. intros [z Hz]. by destruct (Ho z). }
  pose proof Hs as Hs0. unfold stands in Hs0. destruct (v_objs (world s) !! k) as [obj|] eqn:Hk0; [|done].
  destruct (any_ReaderFrom U obj) eqn:Hrf.
  2: { eapply copy_loop_safe; try done. unfold zlen, copy_buffer. rewrite replicate_length. unfold max_slice. lia. }
  unfold any_ReadFrom in H. unfold ybind at 1, lookup_w at 1 in H. fold (world s) in H. rewrite Hk0 in H. destruct obj as [|u'|x]; [done|..].
  - destruct Hs0 as [-> ->]. destruct (raw_ReadFrom_safe _ _ _ _ _ Hk H) as (l & H1 & H2 & H3). exists l. split; [done|]. by apply good_none.
  - destruct Hs0 as (Hn & Hst & Hq). unfold wrap_ReadFrom in H. unfold ybind at 1, on_writer at 1 in H. fold (world s) in H. rewrite (maybe_noop U k (world s) x) in H by done.
    assert (Hss : put_h s (heap_w (s_h s) (world s)) = s) by (by destruct s as [[]]). rewrite Hss in H.
    unfold ybind at 1, lookup_wrap at 1, ybind at 1, lookup_w at 1 in H. fold (world s) in H. rewrite Hk0 in H. cbn [yret] in H.
    change (ww_status x =? StatusNoContent) with (ww_status x =? 204) in H. rewrite <- Hq in H. destruct q.
    + unfold copy_discard, ybind at 1, lookup_b at 1 in H. rewrite Hb, Hw in H. apply discard_loop_safe in H. exists []. rewrite app_nil_r. split; [done|].
      by apply good_none.
    + destruct (negb (wc_readerfrom _)); [injection H as <- <-; by apply Hnone|].
      unfold ybind at 1 in H. destruct (raw_ReadFrom U fuel (Some k) (ww_next x) (Some i) s) as [s1 o1] eqn:Hr.
      destruct (raw_ReadFrom_safe _ _ _ _ _ Hk Hr) as (l & H1 & H2 & H3). exists l. split; [|by apply good_none]. rewrite <- H1.
      destruct o1 as [[z er]|e|]; [|by injection H as <- <-..]. unfold ybind at 1, massert in H. destruct (z >=? 0); [|by injection H as <- <-].
      unfold ybind at 1, yret at 1, lookup_wrap at 1, ybind at 1, lookup_w at 1 in H. destruct (v_objs (h_w (s_h s1)) !! k) as [[| |y]|]; by injection H as <- <-.
Qed.
End Tape.

(** ** Serve *)
Section Serve.
Context {V : Type} (U : uenv V) (fuel : nat).
Implicit Types s : state V.
Context (vR : V -> V -> Prop).
Hypothesis Hcalm : calm U vR.
Hypothesis Hrefl : Reflexive vR.
Hypothesis Htrans : Transitive vR.
(** Only the world outside has changed, and nothing was written. *)
Definition goes (s s' : state V) : Prop :=
  only_world s s' /\ vR (v_v (world s)) (v_v (world s')) /\ exists l, wlog s' = wlog s ++ l /\ client_writes l = [].
Lemma goes_refl s : goes s s.
Proof. split; [done|]. split; [apply Hrefl|]. exists []. by rewrite app_nil_r. Qed.
Lemma goes_trans s1 s2 s3 : goes s1 s2 -> goes s2 s3 -> goes s1 s3.
Proof.
  intros (H1 & H2 & l & H3 & H4) (H5 & H6 & l' & H7 & H8). split; [by etrans|]. split; [by eapply Htrans|]. exists (l ++ l').
  by rewrite H7, H3, app_assoc, writes_app, H4, H8.
Qed.
Lemma push_goes k url s : goes s (any_Push U k url s).1.
Proof.
  unfold any_Push, ybind at 1, lookup_w at 1. fold (world s). assert (Hss : put_h s (heap_w (s_h s) (world s)) = s) by (by destruct s as [[]]).
  assert (Hraw : forall by_ u', goes s (on_writer (raw_Push U by_ u' url) s).1).
  { intros by_ u'. unfold on_writer, raw_Push. fold (world s). pose proof (ca_push _ _ Hcalm (v_v (world s)) u' url) as Hv. destruct (u_push _ _ _ _) as [v' res].
    split; [by eexists|]. split; [exact Hv|]. eexists. split; [reflexivity|done]. }
  destruct (v_objs (world s) !! k) as [[|u'|y]|] eqn:Hk; [apply goes_refl|apply Hraw| |apply goes_refl].
  unfold on_writer. fold (world s). unfold wrap_Push, wbind, wget. rewrite Hk. destruct (wc_pusher _).
  - exact (Hraw (Some k) (ww_next y)).
  - cbn. rewrite Hss. apply goes_refl.
Qed.
Lemma push_all_goes k urls : forall s, goes s (push_all U k urls s).1.
Proof.
  induction urls as [|url urls IH]; intros s; cbn [push_all]; [apply goes_refl|]. unfold ybind.
  pose proof (push_goes k url s) as H. destruct (any_Push U k url s) as [s1 [[err|]|e|]]; cbn in *; try done; [destruct (errors_Is err ErrNotSupported); cbn; [|done]|]; eapply goes_trans; [done|apply IH|done|apply IH].
Qed.
Lemma serve_begin s x k : exists s1, goes s s1 /\
  ((exists o, rp_Serve U fuel x k s = (s1, o) /\ o <> ORet None) \/ rp_Serve U fuel x k s = serve_rest U fuel x k s1).
Proof.
  destruct (rp_Serve U fuel x k s) as [s' o'] eqn:H. unfold rp_Serve, ybind at 1, lookup_w at 1 in H. fold (world s) in H.
  assert (Hstop : forall s1 e, goes s s1 -> (s1, e) = (s', o') -> e <> ORet None -> exists s1, goes s s1 /\
    ((exists o, (s', o') = (s1, o) /\ o <> ORet None) \/ (s', o') = serve_rest U fuel x k s1)).
  { intros s1 e Hg He Hn. exists s1. split; [done|]. left. by exists e. }
  destruct (v_objs (world s) !! k) as [ob|]; [|eapply Hstop; [apply goes_refl|exact H|done]].
  unfold ybind at 1 in H. destruct (any_Pusher U ob); [|exists s; split; [apply goes_refl|right; symmetry; exact H]]. unfold ybind at 1 in H.
  assert (Hm : (map_or_nil (rp_hdrs x) s).1 = s /\ (map_or_nil (rp_hdrs x) s).2 <> OSpin) by (unfold map_or_nil, the_map; destruct (rp_hdrs x) as [m|]; [destruct (s_maps s !! m)|]; done).
  destruct (map_or_nil (rp_hdrs x) s) as [s0 [hdrs|e|]]; destruct Hm as [Hs0 Hns]; cbn in Hs0, Hns; subst s0; [|eapply Hstop; [apply goes_refl|exact H|done]|done].
  unfold ybind at 1, contents at 1 in H. set (urls := contents_of _ _) in H. pose proof (push_all_goes k urls s) as Hg. destruct (push_all U k urls s) as [s1 o1]. cbn in Hg.
  destruct o1 as [[err|]|e|]; [by eapply Hstop| |by eapply Hstop..]. exists s1. split; [done|]. right. symmetry. exact H.
Qed.
Lemma header_calm k st s : vR (v_v (world s)) (v_v (world (any_WriteHeader U k st s).1)).
Proof.
  unfold any_WriteHeader, ybind at 1, lookup_w at 1. fold (world s). destruct (v_objs (world s) !! k) as [[|u'|y]|]; cbn; try apply Hrefl; unfold on_writer; fold (world s).
  - pose proof (wv_WriteHeader U vR Hcalm None u' st (world s)) as H. by destruct (raw_WriteHeader _ _ _ _ _).
  - pose proof (wv_wrap_WriteHeader U vR Hrefl Htrans Hcalm k st (world s)) as H. by destruct (wrap_WriteHeader _ _ _ _).
Qed.
(** Serve is safe if io.Copy is. *)
Lemma serve_safe (checked all : Prop) s i R :
  (forall u k q s0 s' o, s_h s0 = heap_w (s_h s) (world s0) -> vR (v_v (world s)) (v_v (world s0)) -> stands u k q (world s0) -> io_Copy U fuel k (Some i) s0 = (s', o) -> feasible (s_h s') ->
     exists l, wlog s' = wlog s0 ++ l /\ good all ((exists z, o = ORet (z, None)) /\ (checked \/ fair_writer U u)) q R l) ->
  safely U fuel checked all s i R.
Proof.
  intros Hio r x k by_ u s' o new Hr Hx Ht [Hex Hnew] Hf. rewrite (texec_serve U fuel s r x k Hr) in Hex.
  assert (Hno : client_writes new = [] -> (o <> ORet (YErr None)) ->
     concat ((client_writes new).*1) `prefix_of` R /\ Forall in_full (removelast (client_writes new)) /\ (bodiless s k (rp_code x) = true -> client_writes new = []) /\
     (o = ORet (YErr None) -> checked \/ fair_writer U u -> Forall in_full (client_writes new) /\ (all -> bodiless s k (rp_code x) = false -> ~ by_readfrom new -> concat ((client_writes new).*1) = R))).
  { intros -> Ho. split; [apply prefix_nil|]. split; [constructor|]. split; [done|]. by intros ->. }
  destruct (serve_begin s x k) as (s1 & (Ho & HvR & l & Hl & Hlw) & Hs).
  destruct Hs as [(o1 & Hs & Ho1)|Hs]; rewrite Hs in Hex.
  { rewrite (surjective_pairing (s', o)) in Hex. assert (s1 = s') as -> by (by destruct o1; injection Hex as -> _). rewrite Hl in Hnew. apply app_inv_head in Hnew as <-.
    apply Hno; [done|]. destruct o1; injection Hex as <-; [|done..]. by intros [= ->]. }
  pose proof (ow_target _ _ k Ho) as Ht1. rewrite Ht in Ht1.
  destruct (serve_rest U fuel x k s1) as [s2 o2] eqn:Hs2. assert (s' = s2) as -> by (by destruct o2; injection Hex as <- <-).
  assert (Hquiet : forall l2, wlog s2 = wlog s1 ++ l2 -> client_writes l2 = [] -> (forall er, o2 <> ORet er) -> 
     concat ((client_writes new).*1) `prefix_of` R /\ Forall in_full (removelast (client_writes new)) /\ (bodiless s k (rp_code x) = true -> client_writes new = []) /\
     (o = ORet (YErr None) -> checked \/ fair_writer U u -> Forall in_full (client_writes new) /\ (all -> bodiless s k (rp_code x) = false -> ~ by_readfrom new -> concat ((client_writes new).*1) = R))).
  { intros l2 H2 Hl2 Hne. rewrite H2, Hl, <- app_assoc in Hnew. apply app_inv_head in Hnew as <-. apply Hno; [by rewrite writes_app, Hlw, Hl2|].
    destruct o2 as [er| |]; [by destruct (Hne er)|..]; by injection Hex as <-. }
  destruct (rest_run U fuel s1 x k by_ u s2 o2 Ht1 Hs2) as [(Hl2 & _ & e & ->)|(h' & hdrs & s3 & w & ow & -> & Hm & Hc & Hwh & _)].
  { apply (Hquiet []); [by rewrite app_nil_r|done|done]. }
  unfold serve_rest in Hs2. unfold ybind at 1 in Hs2. assert (Hh : any_Header U k s1 = (s1, ORet (u_map U (v_v (world s1)) u))).
  { unfold any_Header, target in *. fold (world s1). destruct (v_objs (world s1) !! k) as [[]|]; try done; by injection Ht1 as <- <-. }
  rewrite Hh in Hs2. unfold ybind at 1 in Hs2. rewrite Hm in Hs2. unfold ybind at 1 in Hs2. rewrite Hc in Hs2. unfold ybind at 1 in Hs2. rewrite Hwh in Hs2.
  assert (H3 : s_h s3 = s_h s1).
  { unfold copy_to in Hc. case_bool_decide; [by injection Hc as <-|]. unfold ybind, the_map in Hc. destruct (s_maps s1 !! _); [|done]. injection Hc as <-. done. }
  assert (Ht3 : target s3 k = Some (by_, u)) by (unfold target, world; rewrite H3; exact Ht1).
  destruct (WriteHeader_run U s3 k by_ u (rp_code x) Ht3) as (w' & ow' & Hwh' & Hcase & Hobj). rewrite Hwh in Hwh'. injection Hwh' as <- <-.
  assert (Hl3 : wlog s3 = wlog s1) by (unfold wlog, world; by rewrite H3). rewrite Hl3 in Hcase.
  assert (Hpre : exists pre, v_log w = wlog s1 ++ pre /\ client_writes pre = []).
  { destruct Hcase as [[_ Hv]|(res & _ & Hv)]; (eexists; split; [exact Hv|]); by destruct by_. }
  destruct Hpre as (pre & Hv & Hpw). set (s4 := put_h s3 (heap_w (s_h s3) w)) in *. assert (Hl4 : wlog s4 = wlog s1 ++ pre) by done.
  destruct ow as [[]|e|]; [|injection Hs2 as <- <-; by apply (Hquiet pre)..].
  specialize (Hobj eq_refl). set (q := bodiless s k (rp_code x)).
  assert (Hst : stands u k q (world s4)).
  { unfold stands, q, bodiless. change (world s4) with w. destruct Ho as (w1 & Hs1 & Hw1).
    assert (Hwo : v_objs (world s3) = v_objs (world s)) by (unfold world; rewrite H3, Hs1; exact Hw1). rewrite Hobj, Hwo.
    unfold target in Ht. destruct (v_objs (world s) !! k) as [[|u'|y]|] eqn:Hk; try done.
    - rewrite Hk. by injection Ht as <- <-.
    - rewrite list_lookup_insert by (eapply lookup_lt_Some; exact Hk). injection Ht as <- <-. split; [done|]. split; [|done]. cbn. intros Hz.
      unfold any_WriteHeader in Hwh. unfold ybind at 1 in Hwh. unfold lookup_w at 1 in Hwh. fold (world s3) in Hwh. rewrite Hwo, Hk in Hwh.
      unfold on_writer, wrap_WriteHeader, wbind, wnote, wassert in Hwh. rewrite Hz in Hwh. cbn in Hwh. done. }
  rewrite Hx in Hs2. unfold ybind at 1 in Hs2. destruct (io_Copy U fuel k (Some i) s4) as [s5 o5] eqn:Hcp.
  assert (Hs4 : s_h s4 = heap_w (s_h s) (world s4)).
  { destruct Ho as (w1 & Hs1 & Hw1). unfold s4. cbn. rewrite H3, Hs1. done. }
  assert (HvR4 : vR (v_v (world s)) (v_v (world s4))).
  { eapply Htrans; [exact HvR|]. replace (world s1) with (world s3) by (unfold world; by rewrite H3). change (world s4) with w.
    pose proof (header_calm k (rp_code x) s3) as Hv4. rewrite Hwh in Hv4. exact Hv4. }
  assert (Hend : exists l5, wlog s2 = wlog s4 ++ l5 /\ good all (o = ORet (YErr None) /\ (checked \/ fair_writer U u)) q R l5).
  { assert (Hf5 : feasible (s_h s5)).
    { destruct o5 as [[z er]|e|]; [|by injection Hs2 as <- <-..]. unfold ybind at 1 in Hs2. rewrite body_call_some in Hs2.
      destruct (uexec U fuel (s_h s5) (Call i Close)) as [h6 o6] eqn:Hcl. apply (uexec_feasible U fuel _ _ _ _ Hcl).
      destruct o6 as [rr|e|]; [destruct rr|..]; injection Hs2 as <- <-; exact Hf. }
    destruct (Hio u k q s4 s5 o5 Hs4 HvR4 Hst Hcp Hf5) as (l5 & Hl5 & Hg). exists l5.
    assert (Hs25 : wlog s2 = wlog s5).
    { destruct o5 as [[z er]|e|]; [|by injection Hs2 as <- <-..]. unfold ybind at 1 in Hs2. rewrite body_call_some in Hs2.
      pose proof (quiet_call U fuel (s_h s5) i Close ltac:(done)) as [_ Hq].
      destruct (uexec U fuel (s_h s5) (Call i Close)) as [h6 o6] eqn:Hcl. cbn in Hq.
      destruct o6 as [rr|e|]; [destruct rr|..]; injection Hs2 as <- <-; exact Hq. }
    split; [by rewrite Hs25|]. eapply good_impl; [|exact Hg]. intros [Hoo Hfw]. split; [|exact Hfw].
    destruct o5 as [[z er]|e|]; [|injection Hs2 as <- <-; rewrite Hoo in Hex; by injection Hex..]. exists z. destruct er as [er|]; [|done]. exfalso.
    unfold ybind at 1 in Hs2. rewrite body_call_some in Hs2. destruct (uexec U fuel (s_h s5) (Call i Close)) as [h6 o6] eqn:Hcl.
    destruct o6 as [rr|e|]; [destruct rr|..]; injection Hs2 as <- <-; rewrite Hoo in Hex; by injection Hex. }
  destruct Hend as (l5 & Hl5 & G1 & G2 & G3 & G4). rewrite Hl5, Hl4, Hl, <- !app_assoc in Hnew. apply app_inv_head in Hnew as <-.
  assert (Hcw : client_writes (l ++ pre ++ l5) = client_writes l5) by (rewrite !writes_app, Hlw, Hpw; done).
  rewrite Hcw. split; [done|]. split; [done|]. split; [done|]. intros Hoo Hfw. destruct (G4 (conj Hoo Hfw)) as [G5 G6]. split; [done|].
  intros Ha Hq Hby. destruct (G6 Ha Hq) as [(by1 & u1 & b1 & Hin)|]; [|done]. destruct Hby. exists by1, u1, b1. set_solver.
Qed.
End Serve.

(** ** Every kind of Body *)
Section Kinds.
Context {V : Type} (U : uenv V) (fuel : nat).
Implicit Types s : state V.
Notation E := (wenv U).
Definition taped (all : Prop) s i R : Prop :=
  exists vR I, calm U vR /\ Reflexive vR /\ Transitive vR /\ tape U fuel i all vR I /\ I R (s_h s).
Lemma tape_taped all vR I i s R : calm U vR -> Reflexive vR -> Transitive vR -> tape U fuel i all vR I -> I R (s_h s) -> taped all s i R.
Proof. intros H1 H2 H3 H4 H5. by exists vR, I. Qed.
Theorem taped_safely all s i R : taped all s i R -> safely U fuel True all s i R.
Proof.
  intros (vR & I & Hcalm & Hrefl & Htrans & Htp & HI). apply (serve_safe U fuel vR Hcalm Hrefl Htrans). intros u k q s0 s' o Hs0 Hv Hst Hcp Hf.
  destruct (io_Copy_safe U fuel i all vR I Htp Hcalm Hrefl Htrans u k R q s0 s' o) as (l & Hl & Hg); try done.
  - rewrite Hs0. by apply (tp_world _ _ _ _ _ _ Htp).
  - exists l. split; [done|]. eapply good_impl; [|exact Hg]. tauto.
Qed.
(** What a Body in memory has left. *)
Theorem bytes_safely s i b : h_b (s_h s) !! i = Some (BBytes b) -> safely U fuel False True s i (left_in b).
Proof.
  intros Hb. apply (serve_safe U fuel (fun _ _ => True)); [by constructor|by intros v|by intros v|]. intros u k q s0 s' o Hs0 _ Hst Hcp Hf. clear Hf.
  assert (Hb0 : h_b (s_h s0) !! i = Some (BBytes b)) by (rewrite Hs0; exact Hb). clear Hs0 Hb.
  unfold io_Copy in Hcp. unfold ybind at 1, lookup_b at 1 in Hcp. rewrite Hb0 in Hcp. cbn [is_WriterTo] in Hcp.
  unfold write_to in Hcp. unfold ybind at 1 in Hcp. rewrite body_call_some in Hcp. unfold uexec, xexec, cmd_prog in Hcp. rewrite Hb0 in Hcp. cbn [method] in Hcp. unfold bytes_WriteTo in Hcp.
  cbn in Hcp. rewrite Hb0 in Hcp. cbn in Hcp. unfold left_in. destruct (by_closed b) eqn:Hcl; cbn in Hcp |- *.
  { injection Hcp as <- <-. exists []. rewrite app_nil_r. split; [done|]. apply good_nil. by intros [[z [=]] _]. }
  destruct (by_eof b) eqn:Heof; cbn in Hcp |- *.
  { injection Hcp as <- <-. exists []. rewrite app_nil_r. split; [done|]. by apply good_nil. }
  destruct (slice (by_data b) (by_offset b) (zlen (by_data b))) as [src|] eqn:Hsl; cbn in Hcp.
  2: { injection Hcp as <- <-. exists []. rewrite app_nil_r. split; [done|]. apply good_nil. by intros [[z [=]] _]. }
  assert (Hsrc : src = drop (Z.to_nat (by_offset b)) (by_data b)).
  { unfold slice in Hsl. destruct (_ && _) eqn:Hc; [|done]. injection Hsl as <-. apply take_ge. rewrite drop_length. unfold zlen. lia. }
  rewrite <- Hsrc. clear Hsrc Hsl. fold (world s0) in Hcp. destruct (any_Write U k src (world s0)) as [w1 res1] eqn:Hw.
  destruct (write_k U u k q (world s0) src w1 res1 Hst Hw) as [_ Hlog].
  assert (Hfin : wlog s' = v_log w1 /\ forall z, o = ORet (z, None) -> res1 = inl (z, None)).
  { destruct res1 as [[n err]|e]; cbn in Hcp; [|injection Hcp as <- <-; done]. destruct (n >=? 0); cbn in Hcp; [|injection Hcp as <- <-; done].
    destruct (n <=? _); cbn in Hcp; [|injection Hcp as <- <-; done]. rewrite Hb0 in Hcp. cbn in Hcp. injection Hcp as <- <-. split; [done|]. by intros z [= -> ->]. }
  destruct Hfin as [Hl Ho]. clear Hcp. destruct q.
  - destruct Hlog as [-> _]. exists []. rewrite app_nil_r. split; [done|]. by apply good_none.
  - destruct Hlog as (by_ & res0 & v & v' & Hlw & Hev & Hres). exists [UWrite by_ u src res0]. split; [by rewrite Hl, Hlw|].
    apply good_one; [done|]. intros [[z Hz] [[]|Hfair]]. split; [|done]. apply Ho in Hz. apply Hres in Hz. subst res0. apply Hfair in Hev as ->. done.
Qed.
Theorem writerto_safely s i b : h_b (s_h s) !! i = Some b -> match b with BClosed | BEmpty _ => True | _ => False end -> safely U fuel True True s i [].
Proof.
  intros Hb Hk. apply (serve_safe U fuel (fun _ _ => True)); [by constructor|by intros v|by intros v|]. intros u k q s0 s' o Hs0 _ Hst Hcp Hf. clear Hf.
  assert (Hb0 : h_b (s_h s0) !! i = Some b) by (rewrite Hs0; exact Hb). clear Hs0 Hb. exists []. rewrite app_nil_r. split; [|by apply good_nil].
  unfold io_Copy in Hcp. unfold ybind at 1, lookup_b at 1 in Hcp. rewrite Hb0 in Hcp. destruct b; try done; cbn [is_WriterTo] in Hcp;
    unfold write_to in Hcp; unfold ybind at 1 in Hcp; rewrite body_call_some in Hcp; unfold uexec, xexec, cmd_prog in Hcp; rewrite Hb0 in Hcp; cbn in Hcp.
  - by injection Hcp as <- <-.
  - rewrite Hb0 in Hcp. cbn in Hcp. destruct (em_closed b); by injection Hcp as <- <-.
Qed.
End Kinds.
