(** * What an honest client gets (proofs) *)
From stdpp Require Import gmap.
From Coq Require Import ZifyBool.
From Verif Require Import RespFacts HonestSpec Post Quiet Preserve ServeProofs WriterProofs ServeMain Own HeapRun Deliver DeliverMain Safe.
From Verif Require SafeFault.

Lemma take_part {A} n (l : list A) : take n l `prefix_of` l.
Proof. exists (drop n l). by rewrite take_drop. Qed.
(** What the client gained. *)
Definition gained (all ok : Prop) (q : bool) (R g g' : bytes) : Prop :=
  exists X, g' = g ++ X /\ X `prefix_of` R /\ (q = true -> X = []) /\ (ok -> all -> q = false -> X = R).
Lemma gained_nil (all ok : Prop) q R g : (ok -> all -> q = false -> R = []) -> gained all ok q R g g.
Proof. intros H. exists []. rewrite app_nil_r. split; [done|]. split; [apply prefix_nil|]. split; [done|]. intros. symmetry. auto. Qed.
Lemma gained_part (all : Prop) q R g n p : q = false -> take n p `prefix_of` R -> gained all False q R g (g ++ take n p).
Proof. intros -> H. eexists. split; [done|]. split; [done|]. split; done. Qed.
Lemma gained_cons all ok R g p g' : gained all ok false R (g ++ p) g' -> gained all ok false (p ++ R) g g'.
Proof.
  intros (X & -> & H1 & _ & H2). exists (p ++ X). split; [by rewrite app_assoc|]. split; [by apply prefix_app|]. split; [done|]. intros Ho Ha Hq. by rewrite H2.
Qed.
Lemma gained_quiet (all ok ok' : Prop) R R' g g' : gained all ok true R g g' -> gained all ok' true R' g g'.
Proof. intros (X & -> & _ & HX & _). rewrite (HX eq_refl). exists []. split; [done|]. split; [apply prefix_nil|]. done. Qed.
Lemma gained_impl (all ok ok' : Prop) q R g g' : (ok' -> ok) -> gained all ok q R g g' -> gained all ok' q R g g'.
Proof. intros H (X & H1 & H2 & H3 & H4). exists X. split; [done|]. split; [done|]. split; [done|]. auto. Qed.

Section H.
Context {V : Type} (U : uenv V) (fuel : nat) (u : uid) (got : V -> bytes).
Hypothesis Hho : honest U u got.
Implicit Types s : state V.
Notation E := (wenv U).
Notation goth h := (got (v_v (h_w h))).
Notation gots s := (got (v_v (world s))).

(** Calls on Bodies other than WriteTo give the client nothing. *)
Lemma quiet_got {A} (Q : A -> Prop) (m : prog A) : quiet Q m -> forall h, goth (xrun E (whazard U) h m).1 = goth h.
Proof.
  revert Q. induction m as [a|e| |X a k IH]; intros Q Hm h; cbn [xrun]; try done.
  destruct (hits (whazard U) h a) as [[w e]|] eqn:Hh.
  { unfold hits, whazard in Hh. destruct (call_of a); [|done]. destruct (u_hazard _ _ _) as [[v e']|] eqn:Hz; [|done]. injection Hh as <- <-. by apply (ho_hazard _ _ _ Hho) in Hz. }
  destruct (act_step E h a) as [[h1 x]|] eqn:Ha; [|done].
  assert (exists Q', quiet Q' (k x)) as [Q' Hk] by (destruct a; cbn in Hm; try done; eauto).
  rewrite (IH x Q' Hk h1). clear IH Hk Hh.
  destruct a; cbn in Ha, Hm; try done; repeat case_match; simplify_eq/=; try done.
  all: match goal with H : ev_read _ ?v ?r ?p = _ |- _ => pose proof (ho_read _ _ _ Hho v r p) as Hx; rewrite H in Hx; exact Hx
    | H : ev_readat _ ?v ?r ?p ?o = _ |- _ => pose proof (ho_readat _ _ _ Hho v r p o) as Hx; rewrite H in Hx; exact Hx
    | H : ev_seek _ ?v ?r ?p ?o = _ |- _ => pose proof (ho_seek _ _ _ Hho v r p o) as Hx; rewrite H in Hx; exact Hx
    | H : ev_close _ ?v ?r = _ |- _ => pose proof (ho_close _ _ _ Hho v r) as Hx; rewrite H in Hx; exact Hx
    | H : ev_stat _ ?v ?r = _ |- _ => pose proof (ho_stat _ _ _ Hho v r) as Hx; rewrite H in Hx; exact Hx end.
Qed.
Lemma call_got h i f : (forall w, f <> WriteTo w) -> goth (uexec U fuel h (Call i f)).1 = goth h.
Proof. intros Hf. unfold uexec, xexec, cmd_prog. destruct (h_b h !! i) as [b|]; [|done]. by eapply quiet_got, q_method. Qed.

Context (k : wid).
Lemma write_got q w p w' res : stands u k q w -> any_Write U k p w = (w', res) ->
  stands u k q w' /\
  if q then w' = w /\ res = inl (zlen p, None) else
  exists n, (n <= length p)%nat /\ got (v_v w') = got (v_v w) ++ take n p /\ forall z, res = inl (z, None) -> n = length p.
Proof.
  intros Hs Hw0. pose proof (write_k U u k q w p w' res Hs Hw0) as [Hs' Hq]. split; [done|]. destruct q; [done|].
  unfold stands in Hs. unfold any_Write in Hw0. destruct (v_objs w !! k) as [[|u'|x]|] eqn:Hk; try done.
  - destruct Hs as [-> _]. unfold raw_Write in Hw0. destruct (ev_write _ _ _ _) as [v' res0] eqn:Hw. injection Hw0 as <- <-. by apply (ho_write _ _ _ Hho) in Hw.
  - destruct Hs as (Hn & Hst & Hq'). unfold wrap_Write, wbind at 1 in Hw0. rewrite (maybe_noop U k w x) in Hw0 by done. unfold wbind at 1, wget at 1 in Hw0. rewrite Hk in Hw0.
    change (ww_status x =? StatusNoContent) with (ww_status x =? 204) in Hw0. rewrite <- Hq' in Hw0.
    unfold wbind at 1, raw_Write in Hw0. rewrite Hn in Hw0. destruct (ev_write _ _ _ _) as [v' res0] eqn:Hw. apply (ho_write _ _ _ Hho) in Hw as (n & H1 & H2 & H3).
    destruct res0 as [[n' err]|e]; [|injection Hw0 as <- <-; exists n; split; [done|]; split; [exact H2|done]].
    unfold wbind at 1, wassert in Hw0. destruct (n' >=? 0); cbn in Hw0; [|injection Hw0 as <- <-; exists n; split; [done|]; split; [exact H2|done]].
    unfold wbind, wget in Hw0. cbn in Hw0. rewrite Hk in Hw0. cbn in Hw0. injection Hw0 as <- <-. exists n. split; [done|]. split; [exact H2|].
    intros z [= -> ->]. eauto.
Qed.

(** ** Sources *)
Section Tape.
Context (i : nat) (all : Prop) (vR : V -> V -> Prop) (I : bytes -> heap (wst V) -> Prop).
Hypothesis Htp : tape U fuel i all vR I.
Hypothesis Hcalm : calm U vR.
Hypothesis Hrefl : Reflexive vR.
Hypothesis Htrans : Transitive vR.
Notation fine o := (exists z : Z, o = ORet (z, None (A:=error))).

Lemma copy_loop_got n : forall R q buf t s s' o, I R (s_h s) -> stands u k q (world s) -> zlen buf <= max_slice ->
  copy_loop U fuel n k (Some i) buf t s = (s', o) -> feasible (s_h s') -> gained all (fine o) q R (gots s) (gots s').
Proof.
  induction n as [|n IH]; intros R q buf t s s' o HI Hs Hm H Hf; cbn [copy_loop] in H; cbv zeta in H.
  { injection H as <- <-. apply gained_nil. by intros []. }
  unfold ybind at 1 in H. rewrite body_call_some in H. pose proof (quiet_call U fuel (s_h s) i (Read buf) ltac:(done)) as Hst.
  pose proof (call_got (s_h s) i (Read buf) ltac:(done)) as Hg.
  destruct (uexec U fuel (s_h s) (Call i (Read buf))) as [h1 o1] eqn:Hex. cbn in Hst, Hg. fold (world s) in Hg.
  assert (Hdone : s' = put_h s h1 -> ~ fine o -> gained all (fine o) q R (gots s) (gots s')).
  { intros -> Hn. unfold world at 2. cbn. rewrite Hg. by apply gained_nil. }
  destruct o1 as [r|e|]; [|injection H as <- <-; apply Hdone; [done|by intros []]..].
  apply uexec_ret in Hex.
  destruct r; try (injection H as <- <-; apply Hdone; [done|by intros []]).
  assert (Hf1 : feasible h1).
  { match type of H with ?m (put_h s h1) = _ => assert (Hp : pres fR m) end.
    { pose proof (fun p t => f_copy_loop U fuel n k (Some i) p t). pose proof (@f_on_writer V). pose proof (@f_slice V). pres_go. }
    specialize (Hp (put_h s h1)). rewrite H in Hp. by apply Hp. }
  pose proof (read_len _ _ _ _ _ _ _ _ _ Hex) as Hl.
  destruct (tp_read _ _ _ _ _ _ Htp _ _ _ _ _ _ _ HI Hm Hex Hf1) as (R' & Hn & -> & HI' & Heof).
  assert (Hmp : zlen p <= max_slice) by (unfold zlen in *; lia).
  apply (stands_still u k _ _ (h_w h1)) in Hs; [|done].
  assert (Hsl : slice p 0 n0 = Some (take (Z.to_nat n0) p)).
  { rewrite slice_ok by lia. cbn. rewrite drop_0. do 2 f_equal. lia. }
  assert (Hz : zlen (take (Z.to_nat n0) p) = n0) by (unfold zlen in *; rewrite take_length; lia).
  assert (Hgo : forall s2 t2, I R' (s_h s2) -> stands u k q (world s2) ->
    match err with Some EOF => yret (t2, None) | Some e => yret (t2, Some e) | None => copy_loop U fuel n k (Some i) p t2 end s2 = (s', o) ->
    gained all (fine o) q R' (gots s2) (gots s')).
  { clear H Hdone. intros s2 t2 HI2 Hs2 H. destruct err as [e|]; [|by eapply IH].
    assert (Ho : s' = s2 /\ (fine o -> e = EOF)) by (destruct e; injection H as <- <-; split; done || by intros [z Hz']).
    destruct Ho as [-> Ho]. apply gained_nil. intros Hok Ha _. apply Heof; [done|]. by rewrite Ho. }
  destruct (n0 >? 0) eqn:Hpos.
  - unfold ybind at 1 2 in H. rewrite Hsl in H. unfold ybind at 1, on_writer at 1 in H. cbn [s_h put_h] in H.
    destruct (any_Write U k (take (Z.to_nat n0) p) (h_w h1)) as [w' res] eqn:Hw.
    destruct (write_got q _ _ _ _ Hs Hw) as [Hs' Hq].
    pose proof (wv_any_Write U vR Hrefl Htrans Hcalm k (take (Z.to_nat n0) p) (h_w h1)) as Hv. rewrite Hw in Hv. cbn in Hv.
    set (s2 := put_h (put_h s h1) (heap_w h1 w')) in *.
    assert (HI2 : I R' (s_h s2)) by (by apply (tp_world _ _ _ _ _ _ Htp)).
    destruct q.
    + destruct Hq as [-> ->]. rewrite Hz in H. replace ((n0 <? 0) || (n0 <? n0)) with false in H by lia. rewrite Z.eqb_refl in H. cbn in H.
      specialize (Hgo s2 _ HI2 Hs' H). unfold world at 1 in Hgo. cbn in Hgo. rewrite Hg in Hgo. by eapply gained_quiet.
    + destruct Hq as (m & Hm1 & Hm2 & Hm3). rewrite Hg in Hm2.
      assert (Hstop : s' = s2 -> ~ fine o -> gained all (fine o) false (take (Z.to_nat n0) p ++ R') (gots s) (gots s')).
      { intros -> Ho. change (gots s2) with (got (v_v w')). rewrite Hm2. apply (gained_impl _ False); [done|]. apply gained_part; [done|].
        transitivity (take (Z.to_nat n0) p); [apply take_part|by apply prefix_app_r]. }
      destruct res as [[nw ew]|e]; [|injection H as <- <-; apply Hstop; [done|by intros []]].
      cbv beta iota zeta in H.
      destruct ((nw <? 0) || (n0 <? nw)) eqn:Hbad.
      { destruct ew; injection H as <- <-; (apply Hstop; [done|by intros []]). }
      destruct ew as [e|]; [injection H as <- <-; apply Hstop; [done|by intros []]|].
      destruct (negb (n0 =? nw)) eqn:Hne; [injection H as <- <-; apply Hstop; [done|by intros []]|].
      rewrite (Hm3 _ eq_refl), take_ge in Hm2 by done. specialize (Hgo s2 _ HI2 Hs' H). change (gots s2) with (got (v_v w')) in Hgo. rewrite Hm2 in Hgo.
      by apply gained_cons.
  - assert (n0 = 0) as -> by lia. cbn in H. specialize (Hgo (put_h s h1) _ HI' Hs H). unfold world at 1 in Hgo. cbn in Hgo. by rewrite Hg in Hgo.
Qed.

(** ReadFrom. *)
Lemma readfrom_loop_got n : forall R last s s' o, 
  match last with
  | None => I R (s_h s)
  | Some (ORet (RRead m p err)) => exists R', 0 <= m <= zlen p /\ R = take (Z.to_nat m) p ++ R' /\ I R' (s_h s) /\ (all -> err = Some EOF -> R' = [])
  | Some _ => True
  end ->
  readfrom_loop U fuel n u (Some i) last s = (s', o) -> feasible (s_h s') ->
  gained all (exists z, o = ORet (inl (z, None))) false R (gots s) (gots s').
Proof.
  induction n as [|n IH]; intros R last s s' o Hlast H Hf; cbn [readfrom_loop] in H; cbv zeta in H.
  { injection H as <- <-. apply gained_nil. by intros []. }
  destruct (u_readfrom U (v_v (h_w (s_h s))) u last) as [v x] eqn:Hu. pose proof (ho_readfrom _ _ _ Hho _ _ _ _ Hu) as Hr. fold (world s) in Hr.
  pose proof (ca_readfrom _ _ Hcalm (v_v (h_w (s_h s))) u last) as Hv. rewrite Hu in Hv. cbn in Hv.
  set (h0 := heap_w (s_h s) (put_v (h_w (s_h s)) v)) in *.
  assert (Hgo : forall R', step_of x = Asks -> I R' h0 -> gained all (exists z, o = ORet (inl (z, None))) false R' (got v) (gots s')).
  { intros R' Hx HI. destruct x as [f|ans]; [|by destruct ans as [[? [?|]]|?]]. destruct f; try done. cbn in Hx. destruct (zlen p <=? max_slice) eqn:Hm; [|done].
    rewrite body_call_some in H. change (s_h (put_h s h0)) with h0 in H. pose proof (call_got h0 i (Read p) ltac:(done)) as Hg.
    destruct (uexec U fuel h0 (Call i (Read p))) as [h1 o1] eqn:Hex. cbn in Hg.
    assert (Hf1 : feasible h1).
    { assert (Hp' : forall l, pres fR (readfrom_loop U fuel n u (Some i) l)) by (intros; apply f_readfrom_loop).
      destruct o1 as [r|e|]; [| |by injection H as <- _];
        (match type of H with readfrom_loop _ _ _ _ _ ?l _ = _ => specialize (Hp' l (put_h (put_h s h0) h1)) end; rewrite H in Hp'; exact (Hp' Hf)). }
    destruct o1 as [r|e|].
    3: { injection H as <- <-. unfold world. cbn. rewrite Hg. apply gained_nil. by intros []. }
    - replace (got v) with (gots (put_h (put_h s h0) h1)) by exact Hg. eapply IH; [|exact H|exact Hf].
      destruct r; try done. apply uexec_ret in Hex. assert (Hm' : zlen p <= max_slice) by lia.
      destruct (tp_read _ _ _ _ _ _ Htp _ _ _ _ _ _ _ HI Hm' Hex Hf1) as (R1 & H1 & H2 & H3 & H4). by exists R1.
    - replace (got v) with (gots (put_h (put_h s h0) h1)) by exact Hg. eapply IH; [|exact H|exact Hf]. done. }
  assert (Hend : step_of x <> Asks -> step_of x <> Strays -> gots s' = got v /\ ((exists z, o = ORet (inl (z, None))) -> step_of x = Content)).
  { intros H1 H2. clear Hgo IH. destruct x as [f|ans].
    - exfalso. destruct f; try done. cbn in H1, H2. by destruct (zlen p <=? max_slice).
    - injection H as <- <-. split; [done|]. intros [z [= ->]]. done. }
  assert (Hstep : forall R', R' = R' -> (step_of x = Asks /\ I R' h0 \/ step_of x = GivesUp) -> gained all (exists z, o = ORet (inl (z, None))) false R' (got v) (gots s')).
  { intros R' _ [[H1 H2]|H1]; [by apply Hgo|]. destruct Hend as [-> Hc]; [by rewrite H1..|]. apply gained_nil. intros Hok. apply Hc in Hok. by rewrite H1 in Hok. }
  assert (Hw : forall R', I R' (s_h s) -> I R' h0) by (intros R' HR'; by apply (tp_world _ _ _ _ _ _ Htp)).
  destruct last as [[r|e|]|].
  2,3: destruct Hr as [Hg Hr]; rewrite <- Hg; apply Hstep; [done|by right].
  2: { destruct Hr as [Hg Hr]. rewrite <- Hg. apply Hstep; [done|]. destruct Hr; [left|by right]. auto. }
  destruct r; try (destruct Hr as [Hg Hr]; rewrite <- Hg; apply Hstep; [done|by right]).
  destruct Hlast as (R' & Hm & -> & HI & Hall). destruct Hr as (m & Hle & Hg & Hr).
  assert (Hsub : take m p = take m (take (Z.to_nat n0) p)) by (rewrite take_take; f_equal; lia).
  destruct Hr as [[H1 ->]|[(H1 & -> & ->)|H1]].
  - apply gained_cons. rewrite <- Hg. apply Hgo; auto.
  - apply gained_cons. rewrite <- Hg. destruct Hend as [-> _]; [by rewrite H1..|]. apply gained_nil. auto.
  - destruct Hend as [-> Hc]; [by rewrite H1..|]. rewrite Hg, Hsub. apply (gained_impl _ False). { intros Hok. apply Hc in Hok. by rewrite H1 in Hok. }
    apply gained_part; [done|]. transitivity (take (Z.to_nat n0) p); [apply take_part|by apply prefix_app_r].
Qed.
Lemma raw_ReadFrom_got by_ R s s' o : I R (s_h s) -> raw_ReadFrom U fuel by_ u (Some i) s = (s', o) -> feasible (s_h s') ->
  gained all (fine o) false R (gots s) (gots s').
Proof.
  intros HI. unfold raw_ReadFrom. unfold ybind at 1. cbn [of_opt yret]. unfold ybind at 1, log_u at 1. cbv zeta. set (s1 := put_h s _). unfold ybind at 1.
  destruct (readfrom_loop U fuel fuel u (Some i) None s1) as [s2 o2] eqn:Hr. intros H Hf.
  assert (Hf2 : feasible (s_h s2)) by (destruct o2 as [[[z er]|e]|e|]; cbn in H; injection H as <- _; exact Hf).
  apply (readfrom_loop_got fuel R None) in Hr; [|apply (tp_world _ _ _ _ _ _ Htp); [done|apply Hrefl]|done]. change (gots s1) with (gots s) in Hr.
  assert (Hs2 : gots s' = gots s2) by (destruct o2 as [[[z er]|e]|e|]; cbn in H; by injection H as <- _). rewrite Hs2. eapply gained_impl; [|exact Hr].
  intros [z ->]. destruct o2 as [[[z' er]|e]|e|]; cbn in H; try (by injection H). injection H as _ <- ->. by exists z'.
Qed.
Lemma discard_loop_got n : forall buf t s s' o, discard_loop U fuel n (Some i) buf t s = (s', o) -> gots s' = gots s.
Proof.
  induction n as [|n IH]; intros buf t s s' o H; cbn [discard_loop] in H; cbv zeta in H; [by injection H as <- <-|].
  unfold ybind at 1 in H. rewrite body_call_some in H. pose proof (call_got (s_h s) i (Read buf) ltac:(done)) as Hst.
  destruct (uexec U fuel (s_h s) (Call i (Read buf))) as [h1 o1]. cbn in Hst.
  destruct o1 as [r|e|]; [|injection H as <- <-; exact Hst..]. destruct r; try (injection H as <- <-; exact Hst).
  destruct err as [e|]; [destruct e; injection H as <- <-; exact Hst|]. apply IH in H. rewrite H. exact Hst.
Qed.
Lemma io_Copy_got R q s s' o : I R (s_h s) -> stands u k q (world s) ->
  io_Copy U fuel k (Some i) s = (s', o) -> feasible (s_h s') -> gained all (fine o) q R (gots s) (gots s').
Proof.
  intros HI Hs H Hf. unfold io_Copy in H. unfold ybind at 1 in H. destruct (tp_kind _ _ _ _ _ _ Htp _ _ HI) as (b & Hb & Hw).
  unfold lookup_b at 1 in H. rewrite Hb, Hw in H. unfold ybind at 1, lookup_w at 1 in H. fold (world s) in H.
  pose proof Hs as Hs0. unfold stands in Hs0. destruct (v_objs (world s) !! k) as [obj|] eqn:Hk0; [|done].
  destruct (any_ReaderFrom U obj) eqn:Hrf.
  2: { eapply copy_loop_got; try done. unfold zlen, copy_buffer. rewrite replicate_length. unfold max_slice. lia. }
  unfold any_ReadFrom in H. unfold ybind at 1, lookup_w at 1 in H. fold (world s) in H. rewrite Hk0 in H. destruct obj as [|u'|x]; [done|..].
  - destruct Hs0 as [-> ->]. by eapply raw_ReadFrom_got.
  - destruct Hs0 as (Hn & Hst & Hq). unfold wrap_ReadFrom in H. unfold ybind at 1, on_writer at 1 in H. fold (world s) in H. rewrite (maybe_noop U k (world s) x) in H by done.
    assert (Hss : put_h s (heap_w (s_h s) (world s)) = s) by (by destruct s as [[]]). rewrite Hss in H.
    unfold ybind at 1, lookup_wrap at 1, ybind at 1, lookup_w at 1 in H. fold (world s) in H. rewrite Hk0 in H. cbn [yret] in H.
    change (ww_status x =? StatusNoContent) with (ww_status x =? 204) in H. rewrite <- Hq in H. destruct q.
    + unfold copy_discard, ybind at 1, lookup_b at 1 in H. rewrite Hb, Hw in H. apply discard_loop_got in H. rewrite H. by apply gained_nil.
    + destruct (negb (wc_readerfrom _)); [injection H as <- <-; apply gained_nil; by intros []|].
      unfold ybind at 1 in H. rewrite Hn in H. destruct (raw_ReadFrom U fuel (Some k) u (Some i) s) as [s1 o1] eqn:Hr.
      assert (Hf1 : feasible (s_h s1)).
      { destruct o1 as [[z er]|e|]; [|by injection H as <- _..].
        match type of H with ?m s1 = _ => assert (Hp : pres fR m) end.
        { pose proof (@f_on_writer V). pose proof (@f_lookup_wrap V). pres_go. }
        specialize (Hp s1). rewrite H in Hp. exact (Hp Hf). }
      apply (raw_ReadFrom_got _ R) in Hr; [|done|done].
      destruct o1 as [[z er]|e|]; [|injection H as <- <-; eapply gained_impl; [|exact Hr]; by intros []..]. unfold ybind at 1, massert in H.
      destruct (z >=? 0); [|injection H as <- <-; eapply gained_impl; [|exact Hr]; by intros []].
      unfold ybind at 1, yret at 1, lookup_wrap at 1, ybind at 1, lookup_w at 1 in H. 
      destruct (v_objs (h_w (s_h s1)) !! k) as [[| |y]|]; try (injection H as <- <-; eapply gained_impl; [|exact Hr]; by intros []).
      unfold yret at 1, ybind at 1 in H. rewrite wput_run in H. injection H as <- <-. eapply gained_impl; [|exact Hr]. intros [z' [= -> ->]]. by exists z'.
Qed.
End Tape.

(** ** Serve *)
Section Serve.
Context (vR : V -> V -> Prop).
Hypothesis Hcalm : calm U vR.
Hypothesis Hrefl : Reflexive vR.
Hypothesis Htrans : Transitive vR.
Definition passes (s s' : state V) : Prop := only_world s s' /\ vR (v_v (world s)) (v_v (world s')) /\ gots s' = gots s.
Lemma passes_refl s : passes s s.
Proof. split; [done|]. split; [apply Hrefl|done]. Qed.
Lemma passes_trans s1 s2 s3 : passes s1 s2 -> passes s2 s3 -> passes s1 s3.
Proof. intros (H1 & H2 & H3) (H5 & H6 & H7). split; [by etrans|]. split; [by eapply Htrans|congruence]. Qed.
Lemma push_passes by_ url s : target s k = Some (by_, u) -> passes s (any_Push U k url s).1.
Proof.
  intros Ht. unfold any_Push, ybind at 1, lookup_w at 1. fold (world s). assert (Hss : put_h s (heap_w (s_h s) (world s)) = s) by (by destruct s as [[]]).
  assert (Hraw : forall b, passes s (on_writer (raw_Push U b u url) s).1).
  { intros b. unfold on_writer, raw_Push. fold (world s). pose proof (ca_push _ _ Hcalm (v_v (world s)) u url) as Hv. pose proof (ho_push _ _ _ Hho (v_v (world s)) url) as Hg.
    destruct (u_push _ _ _ _) as [v' res]. split; [by eexists|]. split; [exact Hv|]. exact Hg. }
  unfold target in Ht. destruct (v_objs (world s) !! k) as [[|u'|y]|] eqn:Hk; try done.
  - injection Ht as _ ->. apply Hraw.
  - injection Ht as _ Hn. unfold on_writer. fold (world s). unfold wrap_Push, wbind, wget. rewrite Hk. destruct (wc_pusher _).
    + rewrite Hn. exact (Hraw (Some k)).
    + cbn. rewrite Hss. apply passes_refl.
Qed.
Lemma push_all_passes by_ urls : forall s, target s k = Some (by_, u) -> passes s (push_all U k urls s).1.
Proof.
  induction urls as [|url urls IH]; intros s Ht; cbn [push_all]; [apply passes_refl|]. unfold ybind.
  pose proof (push_passes by_ url s Ht) as H. assert (Ht' : target (any_Push U k url s).1 k = Some (by_, u)) by (by rewrite (ow_target _ _ k (proj1 H))).
  destruct (any_Push U k url s) as [s1 [[err|]|e|]]; cbn in *; try done; [destruct (errors_Is err ErrNotSupported); cbn; [|done]|]; eapply passes_trans; [done|by apply IH|done|by apply IH].
Qed.
Lemma begin_passes by_ s x : target s k = Some (by_, u) -> exists s1, passes s s1 /\
  ((exists o, rp_Serve U fuel x k s = (s1, o) /\ o <> ORet None) \/ rp_Serve U fuel x k s = serve_rest U fuel x k s1).
Proof.
  intros Ht. destruct (rp_Serve U fuel x k s) as [s' o'] eqn:H. unfold rp_Serve, ybind at 1, lookup_w at 1 in H. fold (world s) in H.
  assert (Hstop : forall s1 e, passes s s1 -> (s1, e) = (s', o') -> e <> ORet None -> exists s1, passes s s1 /\
    ((exists o, (s', o') = (s1, o) /\ o <> ORet None) \/ (s', o') = serve_rest U fuel x k s1)).
  { intros s1 e Hg He Hn. exists s1. split; [done|]. left. by exists e. }
  destruct (v_objs (world s) !! k) as [ob|]; [|eapply Hstop; [apply passes_refl|exact H|done]].
  unfold ybind at 1 in H. destruct (any_Pusher U ob); [|exists s; split; [apply passes_refl|right; symmetry; exact H]]. unfold ybind at 1 in H.
  assert (Hm : (map_or_nil (rp_hdrs x) s).1 = s /\ (map_or_nil (rp_hdrs x) s).2 <> OSpin) by (unfold map_or_nil, the_map; destruct (rp_hdrs x) as [m|]; [destruct (s_maps s !! m)|]; done).
  destruct (map_or_nil (rp_hdrs x) s) as [s0 [hdrs|e|]]; destruct Hm as [Hs0 Hns]; cbn in Hs0, Hns; subst s0; [|eapply Hstop; [apply passes_refl|exact H|done]|done].
  unfold ybind at 1, contents at 1 in H. set (urls := contents_of _ _) in H. pose proof (push_all_passes by_ urls s Ht) as Hg. destruct (push_all U k urls s) as [s1 o1]. cbn in Hg.
  destruct o1 as [[err|]|e|]; [by eapply Hstop| |by eapply Hstop..]. exists s1. split; [done|]. right. symmetry. exact H.
Qed.
Lemma header_got by_ st s : target s k = Some (by_, u) -> gots (any_WriteHeader U k st s).1 = gots s.
Proof.
  intros Ht. unfold any_WriteHeader, ybind at 1, lookup_w at 1. fold (world s). unfold target in Ht.
  assert (Hraw : forall b w, got (v_v (raw_WriteHeader U b u st w).1) = got (v_v w)).
  { intros b w. unfold raw_WriteHeader. pose proof (ho_header _ _ _ Hho (v_v w) st) as Hg. destruct (u_writeheader _ _ _ _) as [v' [e|]]; exact Hg. }
  destruct (v_objs (world s) !! k) as [[|u'|y]|] eqn:Hk; try done; unfold on_writer; fold (world s).
  - injection Ht as _ ->. specialize (Hraw None (world s)). by destruct (raw_WriteHeader _ _ _ _ _).
  - injection Ht as _ Hn. unfold wrap_WriteHeader, writeHeaderImpl, wbind, wnote, wassert, wput, wpanic, wret. destruct (st >=? 100); cbn; [|done]. destruct (st <=? 999); cbn; [|done].
    unfold wget. cbn. rewrite Hk. destruct (negb (ww_status y =? 0)); cbn; [done|]. rewrite ?Hk. cbn.
    match goal with |- context [raw_WriteHeader U ?b ?u' st ?w] => specialize (Hraw b w); rewrite Hn; destruct (raw_WriteHeader U b u st w); exact Hraw end.
Qed.
(** Serve owns up if io.Copy does. *)
Lemma serve_got (all : Prop) s x by_ i R s' o : rp_body x = Some i -> target s k = Some (by_, u) ->
  (forall q s0 s' o, s_h s0 = heap_w (s_h s) (world s0) -> vR (v_v (world s)) (v_v (world s0)) -> stands u k q (world s0) -> io_Copy U fuel k (Some i) s0 = (s', o) -> feasible (s_h s') ->
     gained all (exists z, o = ORet (z, None)) q R (gots s0) (gots s')) ->
  rp_Serve U fuel x k s = (s', o) -> feasible (s_h s') -> gained all (o = ORet None) (bodiless s k (rp_code x)) R (gots s) (gots s').
Proof.
  intros Hx Ht Hio Hex Hf.
  destruct (begin_passes by_ s x Ht) as (s1 & (Ho & HvR & Hg1) & Hs).
  destruct Hs as [(o1 & Hs & Ho1)|Hs]; rewrite Hs in Hex.
  { injection Hex as <- <-. rewrite Hg1. by apply gained_nil. }
  pose proof (ow_target _ _ k Ho) as Ht1. rewrite Ht in Ht1. rewrite <- Hg1.
  pose proof Hex as Hs2. rename s' into s2. rename o into o2.
  destruct (rest_run U fuel s1 x k by_ u s2 o2 Ht1 Hs2) as [(Hl2 & Hsame & e & ->)|(h' & hdrs & s3 & w & ow & -> & Hm & Hc & Hwh & _)].
  { rewrite Hsame. by apply gained_nil. }
  unfold serve_rest in Hs2. unfold ybind at 1 in Hs2. assert (Hh : any_Header U k s1 = (s1, ORet (u_map U (v_v (world s1)) u))).
  { unfold any_Header, target in *. fold (world s1). destruct (v_objs (world s1) !! k) as [[]|]; try done; by injection Ht1 as <- <-. }
  rewrite Hh in Hs2. unfold ybind at 1 in Hs2. rewrite Hm in Hs2. unfold ybind at 1 in Hs2. rewrite Hc in Hs2. unfold ybind at 1 in Hs2. rewrite Hwh in Hs2.
  assert (H3 : s_h s3 = s_h s1).
  { unfold copy_to in Hc. case_bool_decide; [by injection Hc as <-|]. unfold ybind, the_map in Hc. destruct (s_maps s1 !! _); [|done]. injection Hc as <-. done. }
  assert (Ht3 : target s3 k = Some (by_, u)) by (unfold target, world; rewrite H3; exact Ht1).
  destruct (WriteHeader_run U s3 k by_ u (rp_code x) Ht3) as (w' & ow' & Hwh' & Hcase & Hobj). rewrite Hwh in Hwh'. injection Hwh' as <- <-.
  set (s4 := put_h s3 (heap_w (s_h s3) w)) in *.
  assert (Hg4 : gots s4 = gots s1).
  { pose proof (header_got by_ (rp_code x) s3 Ht3) as Hg. rewrite Hwh in Hg. cbn [fst] in Hg. fold s4 in Hg. rewrite Hg. unfold world. by rewrite H3. }
  rewrite <- Hg4.
  destruct ow as [[]|e|]; [|injection Hs2 as <- <-; by apply gained_nil..].
  specialize (Hobj eq_refl). set (q := bodiless s k (rp_code x)).
  assert (Hst : stands u k q (world s4)).
  { unfold stands, q, bodiless. change (world s4) with w. destruct Ho as (w1 & Hs1 & Hw1).
    assert (Hwo : v_objs (world s3) = v_objs (world s)) by (unfold world; rewrite H3, Hs1; exact Hw1). rewrite Hobj, Hwo.
    unfold target in Ht. destruct (v_objs (world s) !! k) as [[|u'|y]|] eqn:Hk; try done.
    - rewrite Hk. by injection Ht as <- <-.
    - rewrite list_lookup_insert by (eapply lookup_lt_Some; exact Hk). injection Ht as <- <-. split; [done|]. split; [|done]. cbn. intros Hz.
      unfold any_WriteHeader in Hwh. unfold ybind at 1 in Hwh. unfold lookup_w at 1 in Hwh. fold (world s3) in Hwh. rewrite Hwo, Hk in Hwh.
      unfold on_writer, wrap_WriteHeader, wbind, wnote, wassert in Hwh. rewrite Hz in Hwh. cbn in Hwh. done. }
  rewrite Hx in Hs2. unfold ybind at 1 in Hs2. destruct (io_Copy U fuel k (Some i) s4) as [s5 o5] eqn:Hcp.
  assert (Hs4 : s_h s4 = heap_w (s_h s) (world s4)).
  { destruct Ho as (w1 & Hs1 & Hw1). unfold s4. cbn. rewrite H3, Hs1. done. }
  assert (HvR4 : vR (v_v (world s)) (v_v (world s4))).
  { eapply Htrans; [exact HvR|]. replace (world s1) with (world s3) by (unfold world; by rewrite H3). change (world s4) with w.
    pose proof (header_calm U vR Hcalm Hrefl Htrans k (rp_code x) s3) as Hv4. rewrite Hwh in Hv4. exact Hv4. }
  assert (Hf5 : feasible (s_h s5)).
  { destruct o5 as [[z er]|e|]; [|by injection Hs2 as <- <-..]. unfold ybind at 1 in Hs2. rewrite body_call_some in Hs2.
    destruct (uexec U fuel (s_h s5) (Call i Close)) as [h6 o6] eqn:Hcl. apply (uexec_feasible U fuel _ _ _ _ Hcl).
    destruct o6 as [rr|e|]; [destruct rr|..]; injection Hs2 as <- <-; exact Hf. }
  pose proof (Hio q s4 s5 o5 Hs4 HvR4 Hst Hcp Hf5) as Hg5.
  destruct o5 as [[z er]|e|]; [|injection Hs2 as <- <-; eapply gained_impl; [|exact Hg5]; done..].
  unfold ybind at 1 in Hs2. rewrite body_call_some in Hs2. pose proof (call_got (s_h s5) i Close ltac:(done)) as Hq.
  destruct (uexec U fuel (s_h s5) (Call i Close)) as [h6 o6] eqn:Hcl. cbn in Hq.
  assert (Hg2 : gots s2 = gots s5) by (destruct o6 as [rr|e|]; [destruct rr|..]; injection Hs2 as <- <-; exact Hq).
  rewrite Hg2. eapply gained_impl; [|exact Hg5]. intros ->. exists z. destruct er as [er|]; [|done].
  destruct o6 as [rr|e|]; [destruct rr|..]; by injection Hs2.
Qed.
End Serve.
End H.

(** ** Every kind of Body *)
Section Kinds.
Context {V : Type} (U : uenv V) (fuel : nat).
Implicit Types s : state V.
Lemma owns_by (vR : V -> V -> Prop) (all : Prop) s i R : calm U vR -> Reflexive vR -> Transitive vR ->
  (forall u got, honest U u got -> forall k q s0 s' o, s_h s0 = heap_w (s_h s) (world s0) -> vR (v_v (world s)) (v_v (world s0)) -> stands u k q (world s0) ->
     io_Copy U fuel k (Some i) s0 = (s', o) -> feasible (s_h s') ->
     gained all (exists z, o = ORet (z, None)) q R (got (v_v (world s0))) (got (v_v (world s')))) ->
  owns_up U fuel all s i R.
Proof.
  intros Hcalm Hrefl Htrans Hio r x k by_ u got s' o Hr Hx Ht Hho Hex Hf. rewrite (texec_serve U fuel s r x k Hr) in Hex. unfold ybind in Hex.
  destruct (rp_Serve U fuel x k s) as [s1 o1] eqn:Hs. assert (s' = s1) as -> by (by destruct o1; injection Hex as <- <-).
  destruct (serve_got U fuel u got Hho k vR Hcalm Hrefl Htrans all s x by_ i R s1 o1 Hx Ht (Hio u got Hho k) Hs Hf) as (X & H1 & H2 & H3 & H4).
  exists X. split; [done|]. split; [done|]. split; [done|]. intros ->. apply H4. destruct o1 as [r1|e1|]; [|by injection Hex..]. by injection Hex as ->.
Qed.
Theorem taped_owns all s i R : taped U fuel all s i R -> owns_up U fuel all s i R.
Proof.
  intros (vR & I & Hcalm & Hrefl & Htrans & Htp & HI). apply (owns_by vR); try done. intros u got Hho k q s0 s' o Hs0 Hv Hst Hcp Hf.
  apply (io_Copy_got U fuel u got Hho k i all vR I Htp Hcalm Hrefl Htrans R q s0 s' o); try done. rewrite Hs0. by apply (tp_world _ _ _ _ _ _ Htp).
Qed.
Theorem bytes_owns s i b : h_b (s_h s) !! i = Some (BBytes b) -> owns_up U fuel True s i (left_in b).
Proof.
  intros Hb. apply (owns_by (fun _ _ => True)); [by constructor|by intros v|by intros v|]. intros u got Hho k q s0 s' o Hs0 _ Hst Hcp Hf. clear Hf.
  assert (Hb0 : h_b (s_h s0) !! i = Some (BBytes b)) by (rewrite Hs0; exact Hb). clear Hs0 Hb.
  unfold io_Copy in Hcp. unfold ybind at 1, lookup_b at 1 in Hcp. rewrite Hb0 in Hcp. cbn [is_WriterTo] in Hcp.
  unfold write_to in Hcp. unfold ybind at 1 in Hcp. rewrite body_call_some in Hcp. unfold uexec, xexec, cmd_prog in Hcp. rewrite Hb0 in Hcp. cbn [method] in Hcp. unfold bytes_WriteTo in Hcp.
  cbn in Hcp. rewrite Hb0 in Hcp. cbn in Hcp. unfold left_in. destruct (by_closed b) eqn:Hcl; cbn in Hcp |- *.
  { injection Hcp as <- <-. apply gained_nil. by intros [z [=]]. }
  destruct (by_eof b) eqn:Heof; cbn in Hcp |- *.
  { injection Hcp as <- <-. by apply gained_nil. }
  destruct (slice (by_data b) (by_offset b) (zlen (by_data b))) as [src|] eqn:Hsl; cbn in Hcp.
  2: { injection Hcp as <- <-. apply gained_nil. by intros [z [=]]. }
  assert (Hsrc : src = drop (Z.to_nat (by_offset b)) (by_data b)).
  { unfold slice in Hsl. destruct (_ && _) eqn:Hc; [|done]. injection Hsl as <-. apply take_ge. rewrite drop_length. unfold zlen. lia. }
  rewrite <- Hsrc. clear Hsrc Hsl. fold (world s0) in Hcp. destruct (any_Write U k src (world s0)) as [w1 res1] eqn:Hw.
  destruct (write_got U u got Hho k q (world s0) src w1 res1 Hst Hw) as [_ Hlog].
  assert (Hfin : world s' = w1 /\ forall z, o = ORet (z, None) -> res1 = inl (z, None)).
  { destruct res1 as [[n err]|e]; cbn in Hcp; [|injection Hcp as <- <-; done]. destruct (n >=? 0); cbn in Hcp; [|injection Hcp as <- <-; done].
    destruct (n <=? _); cbn in Hcp; [|injection Hcp as <- <-; done]. rewrite Hb0 in Hcp. cbn in Hcp. injection Hcp as <- <-. split; [done|]. by intros z [= -> ->]. }
  destruct Hfin as [-> Ho]. clear Hcp. destruct q.
  - destruct Hlog as [-> _]. by apply gained_nil.
  - destruct Hlog as (n & Hn & -> & Hall). exists (take n src). split; [done|]. split; [apply take_part|]. split; [done|].
    intros [z Hz] _ _. rewrite (Hall z (Ho z Hz)). by apply take_ge.
Qed.
Theorem writerto_owns s i b : h_b (s_h s) !! i = Some b -> match b with BClosed | BEmpty _ => True | _ => False end -> owns_up U fuel True s i [].
Proof.
  intros Hb Hk. apply (owns_by (fun _ _ => True)); [by constructor|by intros v|by intros v|]. intros u got Hho k q s0 s' o Hs0 _ Hst Hcp Hf. clear Hf.
  assert (Hb0 : h_b (s_h s0) !! i = Some b) by (rewrite Hs0; exact Hb). clear Hs0 Hb.
  assert (world s' = world s0) as ->; [|by apply gained_nil].
  unfold io_Copy in Hcp. unfold ybind at 1, lookup_b at 1 in Hcp. rewrite Hb0 in Hcp. destruct b; try done; cbn [is_WriterTo] in Hcp;
    unfold write_to in Hcp; unfold ybind at 1 in Hcp; rewrite body_call_some in Hcp; unfold uexec, xexec, cmd_prog in Hcp; rewrite Hb0 in Hcp; cbn in Hcp.
  - by injection Hcp as <- <-.
  - rewrite Hb0 in Hcp. cbn in Hcp. destruct (em_closed b); by injection Hcp as <- <-.
Qed.
Definition own_readerat := SafeFault.any_readerat U fuel (owns_up U fuel) taped_owns.
Definition own_seeker := SafeFault.any_seeker U fuel (owns_up U fuel) taped_owns.
Definition own_stream := SafeFault.any_stream U fuel (owns_up U fuel) taped_owns.
Definition own_readerat_faults := SafeFault.any_readerat_faults U fuel (owns_up U fuel) taped_owns.
Definition own_seeker_faults := SafeFault.any_seeker_faults U fuel (owns_up U fuel) taped_owns.
Definition own_readerat_short := SafeFault.any_readerat_short U fuel (owns_up U fuel) taped_owns.
Definition own_seeker_short := SafeFault.any_seeker_short U fuel (owns_up U fuel) taped_owns.
End Kinds.
