(** * handler.Adaptor (proofs) *)
From stdpp Require Import gmap.
From Coq Require Import ZifyBool.
From Verif Require Import RespFacts AdaptorSpec WriterProofs WriterMain ServeProofs ServeMain Metrics.

Section A.
Context {V : Type} (U : uenv V) (fuel : nat).
Implicit Types (s : state V) (k : wid).

(** ** The inner Handler and Serve *)
Definition served (inner : handler) (ww : wid) s : state V * (out unit + unit) :=
  match run_handler U fuel inner s with
  | (s, inr tt) => (s, inr tt)
  | (s, inl (ORet x)) =>
      match rp_Serve U fuel x ww s with
      | (s, ORet (Some e)) => (s, inl (OPanic (PError e)))
      | (s, ORet None) => (s, inl (ORet tt))
      | (s, OPanic e) => (s, inl (OPanic e))
      | (s, OSpin) => (s, inl OSpin)
      end
  | (s, inl (OPanic e)) => (s, inl (OPanic e))
  | (s, inl OSpin) => (s, inl OSpin)
  end.
Definition end_of (x : out unit + unit) : option ending :=
  match x with inl OSpin => None | inl (OPanic e) => Some (Panicked e) | inl (ORet tt) => Some Fine | inr tt => Some PanickedNil end.
Lemma zero_serve s k x : v_objs (world s) !! k = Some (WWrap x) -> rp_Serve U fuel zero_response k s = ybind (any_WriteHeader U k 0) (fun _ => mpanic PNil) s.
Proof.
  intros Hk. unfold rp_Serve. unfold ybind at 1, lookup_w. fold (world s). rewrite Hk. unfold ybind at 1.
  assert (Hp : (if any_Pusher U (WWrap x) then ybind (map_or_nil (rp_hdrs zero_response)) (fun hdrs => ybind (contents (default nil_slice (hdrs !! headerPush))) (push_all U k)) else yret None) s = (s, ORet None)).
  { destruct (any_Pusher U (WWrap x)); [|done]. unfold ybind. cbn. rewrite lookup_empty. done. }
  unfold ybind in Hp |- *. rewrite Hp. clear Hp. unfold any_Header. fold (world s). rewrite Hk. cbn. done.
Qed.
Lemma zero_header s k x : v_objs (world s) !! k = Some (WWrap x) -> exists s' e, any_WriteHeader U k 0 s = (s', OPanic e).
Proof.
  intros Hk. unfold any_WriteHeader, ybind, lookup_w. fold (world s). rewrite Hk. unfold on_writer. fold (world s). unfold wrap_WriteHeader, wbind, wassert, wnote, wget. cbn. eauto.
Qed.
Lemma served_handled inner k : forall s s2 y x e, v_objs (world s) !! k = Some (WWrap x) -> winv U (world s) ->
  served inner k s = (s2, y) -> end_of y = Some e -> handled U fuel k inner s s2 e.
Proof.
  induction inner as [[r|]|[p|]|c f IH]; intros s s2 y x e Hk Hwi Hs He; unfold served in Hs; cbn [run_handler] in Hs.
  - destruct (s_rps s !! r) as [rp|] eqn:Hr.
    + destruct (rp_Serve U fuel rp k s) as [s3 o3] eqn:Hsv.
      assert (Ht : texec U fuel (TDo (RServe r k)) s = (s3, match o3 with ORet e => ORet (YErr e) | OPanic e => OPanic e | OSpin => OSpin end)).
      { rewrite (texec_serve U fuel s r rp k Hr). unfold ybind. rewrite Hsv. by destruct o3. }
      destruct o3 as [[er|]|p|]; injection Hs as <- <-; cbn in He; try done; injection He as <-.
      * exact (hd_serve U fuel k r s s3 (Some er) Ht).
      * exact (hd_serve U fuel k r s s3 None Ht).
      * by apply hd_serve_panics.
    + injection Hs as <- <-. injection He as <-. apply hd_serve_panics. cbn. unfold ybind, the_rp. by rewrite Hr.
  - rewrite (zero_serve s k x Hk) in Hs. unfold ybind in Hs. destruct (zero_header s k x Hk) as (s3 & p & Hz). rewrite Hz in Hs. injection Hs as <- <-. injection He as <-.
    apply hd_zero. cbn. unfold w_do, ybind at 1, lookup_w. fold (world s). rewrite Hk. unfold ybind. by rewrite Hz.
  - injection Hs as <- <-. injection He as <-. constructor.
  - injection Hs as <- <-. injection He as <-. constructor.
  - pose proof (w_texec U fuel (TDo c) s Hwi) as [Hwi1 Hgr]. cbn [texec] in Hwi1, Hgr. destruct (rdo U fuel c s) as [s1 o1] eqn:Hc. cbn in Hwi1, Hgr.
    destruct Hgr as (_ & _ & _ & Hgr). destruct (Hgr k x Hk) as (x1 & Hk1 & _).
    destruct o1 as [a|p|]; [| |injection Hs as <- <-; done].
    + eapply (hd_do U fuel k c f (ORet a) s s1); [exact Hc|done|]. by eapply IH.
    + eapply (hd_do U fuel k c f (OPanic p) s s1); [exact Hc|done|]. by eapply IH.
Qed.
Lemma handled_steps inner k s s2 x : handled U fuel k inner s s2 x -> wstep U (world s) (world s2) /\ s_met s2 = s_met s.
Proof.
  assert (Hstep : forall c s s' o, texec U fuel (TDo c) s = (s', o) -> wstep U (world s) (world s') /\ s_met s' = s_met s).
  { intros c s0 s' o Hc. pose proof (w_texec U fuel (TDo c) s0) as H1. pose proof (n_rdo U fuel c s0) as H2. cbn [texec] in Hc. rewrite Hc in H2. cbn [texec] in H1. unfold wR in H1. rewrite Hc in H1. done. }
  induction 1 as [c f o s s1 s2 x Hc _ _ [IH1 IH2]|e s|s|r s s' e Hc|r s s' e Hc|s s' e Hc].
  - destruct (Hstep _ _ _ _ Hc) as [H1 H2]. split; [by eapply wstep_trans|congruence].
  - split; [apply wstep_refl|done].
  - split; [apply wstep_refl|done].
  - by eapply Hstep.
  - by eapply Hstep.
  - by eapply Hstep.
Qed.
(** ServeHTTP in terms of these. *)
Lemma handled_fun inner k : forall s s2 x s2' x', handled U fuel k inner s s2 x -> handled U fuel k inner s s2' x' -> s2 = s2' /\ x = x'.
Proof.
  intros s s2 x s2' x' H. revert s2' x'. induction H as [c f o s s1 s2 x Hc Ho Hh IH|e s|s|r s s' e Hc|r s s' e Hc|s s' e Hc]; intros s2' x' H'; inversion H'; subst; try done; try (split; congruence).
  2: { assert (e0 = e /\ s2' = s') as [-> ->] by (split; congruence). done. }
  match goal with H1 : texec _ _ _ _ = (s1, _), H2 : texec _ _ _ _ = (?a, ?b), H3 : handled _ _ _ (f ?b) _ _ _ |- _ => assert (a = s1 /\ b = o) as [-> ->] by (split; congruence); by apply IH end.
Qed.
Definition ended (x : ending) : option panic := match x with Panicked e => Some e | _ => None end.
Lemma serve_http inner k by_ u isHEAD s s' o : winv U (world s) -> target s k = Some (by_, u) -> texec U fuel (TServe inner (Some k) isHEAD) s = (s', o) -> o <> OSpin ->
  exists s1 k' s2 x y o1, texec U fuel (TDo (RNewWriter (Some k) isHEAD)) s = (s1, ORet (YHandle (Some k'))) /\ winv U (world s1) /\
    v_objs (world s1) !! k' = Some (WWrap y) /\ ww_next y = u /\ handled U fuel k' inner s1 s2 x /\ s_met s1 = s_met s /\
    adaptor_defer U k' (ended x) s2 = (s', o1) /\ o = match o1 with ORet _ => ORet YUnit | OPanic e => OPanic e | OSpin => OSpin end.
Proof.
  intros Hwi Ht H Ho. cbn in H. unfold ybind in H.
  assert (Hn : exists s1 k' y, NewWriter U (Some k) isHEAD s = (s1, ORet k') /\ v_objs (world s1) !! k' = Some (WWrap y) /\ ww_next y = u).
  { unfold target in Ht. unfold NewWriter. fold (world s). destruct (v_objs (world s) !! k) as [[|u'|y]|] eqn:Hk; try done.
    - injection Ht as <- <-. eexists _, _, _. split; [reflexivity|]. split; [cbn; by apply list_lookup_middle|done].
    - injection Ht as <- <-. by eexists _, _, _. }
  destruct Hn as (s1 & k' & y & Hn & Hk' & Hy).
  assert (Hn' : texec U fuel (TDo (RNewWriter (Some k) isHEAD)) s = (s1, ORet (YHandle (Some k')))) by (cbn; unfold ybind; by rewrite Hn).
  pose proof (w_texec U fuel (TDo (RNewWriter (Some k) isHEAD)) s Hwi) as [Hwi1 _]. rewrite Hn' in Hwi1. cbn in Hwi1.
  pose proof (n_NewWriter U (Some k) isHEAD s) as Hm. rewrite Hn in Hm.
  assert (Hsv : ServeHTTP U fuel inner (Some k) isHEAD s = let '(s2, x) := served inner k' s1 in
    match x with inl OSpin => (s2, OSpin) | inl (OPanic e) => adaptor_defer U k' (Some e) s2 | inl (ORet tt) | inr tt => adaptor_defer U k' None s2 end).
  { unfold ServeHTTP. rewrite Hn. unfold served. destruct (run_handler U fuel inner s1) as [s2 [[rp|p|]|[]]]; [|done..].
    destruct (rp_Serve U fuel rp k' s2) as [s3 [[|]| |]]; done. }
  rewrite Hsv in H. destruct (served inner k' s1) as [s2 x] eqn:Hs. destruct (end_of x) as [e|] eqn:He.
  - pose proof (served_handled inner k' s1 s2 x y e Hk' Hwi1 Hs He) as Hh.
    assert (Hd : exists o1, adaptor_defer U k' (ended e) s2 = (s', o1) /\ o = match o1 with ORet _ => ORet YUnit | OPanic e => OPanic e | OSpin => OSpin end).
    { destruct x as [[[]|p|]|[]]; try done; injection He as <-; cbn [ended]; destruct (adaptor_defer U k' _ s2) as [s3 [[]|p'|]]; injection H as <- <-; eexists; split; done. }
    destruct Hd as (o1 & Hd & ->). exists s1, k', s2, e, y, o1. done.
  - destruct x as [[[]|p|]|[]]; try done. injection H as <- <-. done.
Qed.

(** ** The deferred function *)
Definition counts (code : string) (n : Z) (pv : option panic) : list metric :=
  match pv with Some _ => [MPanics] | None => [] end ++ [MRequests code; MLatency code; MRecvBytes code 0; MSendBytes code n; MLatencyHist; MRecvHist 0; MSendHist n].
Lemma mets_run l s : mets l s = (put_met s (s_met s ++ l), ORet tt).
Proof.
  revert s. induction l as [|e l IH]; intros s; cbn [mets]; [rewrite app_nil_r; by destruct s|]. unfold ybind, met. rewrite IH. cbn. by rewrite <- app_assoc.
Qed.
Lemma defer_run s k x pv s' o : v_objs (world s) !! k = Some (WWrap x) -> adaptor_defer U k pv s = (s', o) ->
  let st' := if ww_status x =? 0 then 500 else ww_status x in
  let new := if ww_status x =? 0 then [UHeader (Some k) (ww_next x) 500 (u_writeheader U (v_v (world s)) (ww_next x) 500).2] else [] in
  (exists x', v_objs (world s') !! k = Some (WWrap x') /\ ww_status x' = st' /\ ww_next x' = ww_next x) /\
  wlog s' = wlog s ++ new /\
  ((exists e, o = OPanic e /\ ww_status x = 0 /\ (u_writeheader U (v_v (world s)) (ww_next x) 500).2 = Some e /\ s_met s' = s_met s) \/
   (s_met s' = s_met s ++ counts (itoa (ww_status x)) (ww_bytes x) pv ++ (match pv with Some e => [MOnPanic (negb (is_go_error e)) e] | None => [] end) /\
    (o = ORet tt \/ exists e p v, o = OPanic e /\ pv = Some p /\ (u_onpanic U v (negb (is_go_error p)) p).2 = Some e))).
Proof.
  intros Hk H. unfold adaptor_defer in H. unfold ybind at 1, lookup_wrap, ybind at 1, lookup_w in H. fold (world s) in H. rewrite Hk in H. cbn [yret] in H. unfold yret at 1 in H. cbv zeta in H.
  unfold ybind at 1 in H. unfold on_writer in H. fold (world s) in H. rewrite (MaybeWriteHeader_run U) in H. change ((100 <=? StatusInternalServerError) && (StatusInternalServerError <=? 999)) with true in H. rewrite Hk in H.
  change StatusInternalServerError with 500 in H.
  assert (Hrest : forall s1 s' o, ybind (mets (counts (itoa (ww_status x)) (ww_bytes x) pv)) (fun _ =>
      match pv with
      | None => yret tt
      | Some e => ybind (met (MOnPanic (negb (is_go_error e)) e)) (fun _ => outside (fun v => let '(v, x) := u_onpanic U v (negb (is_go_error e)) e in (v, opt_panic x)))
      end) s1 = (s', o) -> v_objs (world s') = v_objs (world s1) /\ wlog s' = wlog s1 /\
      s_met s' = s_met s1 ++ counts (itoa (ww_status x)) (ww_bytes x) pv ++ (match pv with Some e => [MOnPanic (negb (is_go_error e)) e] | None => [] end) /\
      (o = ORet tt \/ exists e p v, o = OPanic e /\ pv = Some p /\ (u_onpanic U v (negb (is_go_error p)) p).2 = Some e)).
  { clear. intros s1 s' o. unfold ybind at 1. rewrite mets_run. destruct pv as [e|].
    - unfold ybind, met, outside. cbn. destruct (u_onpanic U _ (negb (is_go_error e)) e) as [v [p|]] eqn:Hu; cbn; intros [= <- <-]; cbn; rewrite <- ?app_assoc; cbn; repeat (split; [done|]); [right|by left].
      exists p, e, (v_v (h_w (s_h s1))). split; [done|]. split; [done|]. by rewrite Hu.
    - intros [= <- <-]. cbn. split; [done|]. split; [done|]. split; [done|by left]. }
  destruct (ww_status x =? 0) eqn:Hst; cbv zeta in H.
  - destruct (u_writeheader U (v_v (world s)) (ww_next x) 500) as [v [e|]] eqn:Hu; cbn [opt_panic] in H.
    + injection H as <- <-. split.
      { exists (with_status x 500). cbn. split; [apply list_lookup_insert; by eapply lookup_lt_Some|done]. }
      split; [done|]. left. exists e. split; [done|]. split; [lia|]. done.
    + destruct (Hrest _ _ _ H) as (H1 & H2 & H3 & H4). split.
      { exists (with_status x 500). rewrite H1. cbn. split; [apply list_lookup_insert; by eapply lookup_lt_Some|done]. }
      split; [rewrite H2; done|]. right. done.
  - assert (Hss : put_h s (heap_w (s_h s) (world s)) = s) by (destruct s as [[] ? ? ? ? ?]; done). rewrite Hss in H.
    destruct (Hrest _ _ _ H) as (H1 & H2 & H3 & H4). split; [exists x; rewrite H1; done|]. split; [rewrite H2; by rewrite app_nil_r|]. right. done.
Qed.

(** ** As the property files state them *)
Lemma full inner k by_ u isHEAD s s1 k' s2 x s' o : treaches U fuel s -> target s k = Some (by_, u) -> request U fuel inner k isHEAD s s1 k' s2 x s' o ->
  exists y o1, v_objs (world s2) !! k' = Some (WWrap y) /\ ww_next y = u /\ s_met s2 = s_met s /\ winv U (world s') /\
    adaptor_defer U k' (ended x) s2 = (s', o1) /\ o = match o1 with ORet _ => ORet YUnit | OPanic e => OPanic e | OSpin => OSpin end.
Proof.
  intros Hr Ht (H & Ho & Hn & Hh). pose proof (treaches_winv U fuel s Hr) as Hwi.
  destruct (serve_http inner k by_ u isHEAD s s' o Hwi Ht H Ho) as (s1' & k1 & s2' & x' & y & o1 & Hn' & Hwi1 & Hk1 & Hy & Hh' & Hm & Hd & Hoo).
  assert (s1' = s1 /\ k1 = k') as [-> ->] by (split; congruence). destruct (handled_fun _ _ _ _ _ _ _ Hh Hh') as [-> ->].
  destruct (handled_steps _ _ _ _ _ Hh) as [Hst Hm2]. destruct (Hst Hwi1) as [Hwi2 (_ & _ & _ & Hgr)]. destruct (Hgr k' y Hk1) as (y2 & Hk2 & _ & Hy2 & _).
  exists y2, o1. split; [done|]. split; [congruence|]. split; [congruence|]. split; [|done].
  pose proof (w_texec U fuel (TServe inner (Some k) isHEAD) s Hwi) as [Hw' _]. rewrite H in Hw'. done.
Qed.
Theorem is_request : forall s k by_ u inner isHEAD s' o,
  treaches U fuel s -> target s k = Some (by_, u) -> texec U fuel (TServe inner (Some k) isHEAD) s = (s', o) -> o <> OSpin ->
  exists s1 k' s2 x, request U fuel inner k isHEAD s s1 k' s2 x s' o.
Proof.
  intros s k by_ u inner isHEAD s' o Hr Ht H Ho. destruct (serve_http inner k by_ u isHEAD s s' o (treaches_winv U fuel s Hr) Ht H Ho) as (s1 & k' & s2 & x & y & o1 & Hn & _ & _ & _ & Hh & _).
  exists s1, k', s2, x. done.
Qed.
Theorem escapes : forall s k by_ u inner isHEAD s1 k' s2 x s' o,
  treaches U fuel s -> target s k = Some (by_, u) -> request U fuel inner k isHEAD s s1 k' s2 x s' o ->
  o = ORet YUnit \/
  exists e, o = OPanic e /\
    (reports U fuel s2 k' WStatus (YInt 0) /\ (u_writeheader U (v_v (world s2)) u 500).2 = Some e \/
     exists p v w, x = Panicked p /\ (u_onpanic U v w p).2 = Some e).
Proof.
  intros s k by_ u inner isHEAD s1 k' s2 x s' o Hr Ht Hq. destruct (full _ _ _ _ _ _ _ _ _ _ _ _ Hr Ht Hq) as (y & o1 & Hk & Hy & Hm & Hwi & Hd & Hoo).
  destruct (defer_run s2 k' y (ended x) s' o1 Hk Hd) as (_ & _ & [(e & -> & Hst & Hu & _)|(_ & [->|(e & p & v & -> & Hp & Hu)])]).
  - right. exists e. split; [done|]. left. split; [apply reports_Status; eauto|]. by rewrite <- Hy.
  - by left.
  - right. exists e. split; [done|]. right. destruct x; try done. injection Hp as ->. eauto.
Qed.
Theorem returns : forall s k by_ u inner isHEAD s1 k' s2 x s' o,
  treaches U fuel s -> target s k = Some (by_, u) -> request U fuel inner k isHEAD s s1 k' s2 x s' o ->
  (forall v, (u_writeheader U v u 500).2 = None) -> (forall v w p, (u_onpanic U v w p).2 = None) -> o = ORet YUnit.
Proof.
  intros s k by_ u inner isHEAD s1 k' s2 x s' o Hr Ht Hq H1 H2. destruct (escapes _ _ _ _ _ _ _ _ _ _ _ _ Hr Ht Hq) as [->|(e & -> & [[_ H]|(p & v & w & _ & H)])]; [done|..].
  - by rewrite H1 in H.
  - by rewrite H2 in H.
Qed.
Lemma statuses_none l : Forall (fun e => ~ is_header e) l -> statuses_in l = [].
Proof. induction 1 as [|e l He _ IH]; [done|]. destruct e; cbn in *; try done. Qed.
Lemma statuses_push l : Forall is_push l -> statuses_in l = [].
Proof. induction 1 as [|e l He _ IH]; [done|]. destruct e; cbn in *; try done. Qed.
Theorem one_status : forall s k by_ u inner isHEAD s1 k' s2 x s' o st,
  treaches U fuel s -> target s k = Some (by_, u) -> request U fuel inner k isHEAD s s1 k' s2 x s' o ->
  reports U fuel s2 k' WStatus (YInt st) ->
  statuses_in (sent_by k' (wlog s')) = [(u, if st =? 0 then 500 else st)] /\
  reports U fuel s' k' WStatus (YInt (if st =? 0 then 500 else st)).
Proof.
  intros s k by_ u inner isHEAD s1 k' s2 x s' o st Hr Ht Hq Hst. destruct (full _ _ _ _ _ _ _ _ _ _ _ _ Hr Ht Hq) as (y & o1 & Hk & Hy & Hm & Hwi & Hd & Hoo).
  apply reports_Status in Hst as (y' & Hk' & <-). assert (y' = y) as -> by (unfold wid in *; congruence).
  destruct (defer_run s2 k' y (ended x) s' o1 Hk Hd) as ((z & Hz & Hzs & Hzn) & _ & _). split; [|apply reports_Status; eauto].
  destruct Hwi as [Hok _]. destruct (Hok k' z Hz) as [_ Hnx (pre & post & Hp & Hpre & Hpost) _ _ _]. change (v_log (world s')) with (wlog s') in *.
  rewrite Hp. unfold statuses_in. rewrite omap_app. fold (statuses_in pre) (statuses_in post). rewrite (statuses_push pre Hpre). cbn.
  destruct post as [|e post]; [exfalso; rewrite Hzs in Hpost; destruct (ww_status y =? 0) eqn:E0; lia|]. destruct e; try done. destruct Hpost as (Hs & _ & Hf).
  cbn. rewrite <- Hs, Hzs. f_equal; [|by apply statuses_none].
  rewrite Hp in Hnx. apply Forall_app in Hnx as [_ Hnx]. apply Forall_cons in Hnx as [Hu _]. f_equal. congruence.
Qed.
Theorem counted : forall s k by_ u inner isHEAD s1 k' s2 x s' o,
  treaches U fuel s -> target s k = Some (by_, u) -> request U fuel inner k isHEAD s s1 k' s2 x s' o ->
  (forall v, (u_writeheader U v u 500).2 = None) ->
  exists m, s_met s' = s_met s ++ m /\ length (requests_in m) = 1%nat /\
    panics_in m = (match x with Panicked _ => 1 | _ => 0 end)%nat /\ onpanics_in m = match x with Panicked e => [e] | _ => [] end.
Proof.
  intros s k by_ u inner isHEAD s1 k' s2 x s' o Hr Ht Hq H1. destruct (full _ _ _ _ _ _ _ _ _ _ _ _ Hr Ht Hq) as (y & o1 & Hk & Hy & Hm & Hwi & Hd & Hoo).
  destruct (defer_run s2 k' y (ended x) s' o1 Hk Hd) as (_ & _ & [(e & _ & _ & Hu & _)|[Hmet _]]); [rewrite Hy, H1 in Hu; done|].
  eexists. split; [rewrite Hmet, Hm; reflexivity|]. by destruct x.
Qed.
Theorem labels : forall s k by_ u inner isHEAD s1 k' s2 x s' o st n,
  treaches U fuel s -> target s k = Some (by_, u) -> request U fuel inner k isHEAD s s1 k' s2 x s' o ->
  (forall v, (u_writeheader U v u 500).2 = None) ->
  reports U fuel s2 k' WStatus (YInt st) -> reports U fuel s2 k' WBytesWritten (YInt n) ->
  exists m, s_met s' = s_met s ++ m /\ requests_in m = [itoa st] /\ Forall (eq (itoa st)) (labels_in m) /\ MSendBytes (itoa st) n ∈ m.
Proof.
  intros s k by_ u inner isHEAD s1 k' s2 x s' o st n Hr Ht Hq H1 Hst Hn. destruct (full _ _ _ _ _ _ _ _ _ _ _ _ Hr Ht Hq) as (y & o1 & Hk & Hy & Hm & Hwi & Hd & Hoo).
  apply reports_Status in Hst as (y' & Hk' & <-). assert (y' = y) as -> by (unfold wid in *; congruence).
  apply reports_Bytes in Hn as (y' & Hk2 & <-). assert (y' = y) as -> by (unfold wid in *; congruence).
  destruct (defer_run s2 k' y (ended x) s' o1 Hk Hd) as (_ & _ & [(e & _ & _ & Hu & _)|[Hmet _]]); [rewrite Hy, H1 in Hu; done|].
  eexists. split; [rewrite Hmet, Hm; reflexivity|]. unfold counts. destruct x; cbn; (split; [done|]); (split; [by repeat constructor|]); set_solver.
Qed.
Theorem right_labels : forall s k by_ u inner isHEAD s1 k' s2 x s' o st,
  treaches U fuel s -> target s k = Some (by_, u) -> request U fuel inner k isHEAD s s1 k' s2 x s' o ->
  (forall v, (u_writeheader U v u 500).2 = None) -> reports U fuel s2 k' WStatus (YInt st) -> st <> 0 ->
  exists m, s_met s' = s_met s ++ m /\ statuses_in (sent_by k' (wlog s')) = [(u, st)] /\
    requests_in m = [itoa st] /\ Forall (eq (itoa st)) (labels_in m).
Proof.
  intros s k by_ u inner isHEAD s1 k' s2 x s' o st Hr Ht Hq H1 Hst H0. destruct (one_status _ _ _ _ _ _ _ _ _ _ _ _ _ Hr Ht Hq Hst) as [Hs _].
  replace (st =? 0) with false in Hs by lia. destruct (proj1 (reports_Status U fuel s2 k' st) Hst) as (y & Hk & _).
  destruct (labels _ _ _ _ _ _ _ _ _ _ _ _ st (ww_bytes y) Hr Ht Hq H1 Hst) as (m & Hm & H2 & H3 & _); [apply reports_Bytes; eauto|]. eauto.
Qed.
End A.
