(** * Answers without a body: what becomes of the Body (proofs) *)
From stdpp Require Import gmap.
From Coq Require Import ZifyBool.
From Verif Require Import DrainSpec RunFacts RespFacts Quiet Hazard Post ServeProofs WriterProofs ServeMain Deliver Safe.

Section Drain.
Context {V : Type} (U : uenv V) (fuel : nat) (i : nat).

Lemma read_text p s s1 x : body_call U fuel (Some i) (Read p) s = (s1, ORet x) -> texec U fuel (TDo (RB (Call i (Read p)))) s = (s1, ORet (YBody x)).
Proof. unfold body_call, ybind, of_opt, yret. intros H. cbn. unfold ybind. by rewrite H. Qed.
Lemma read_full p s s1 n q er : body_call U fuel (Some i) (Read p) s = (s1, ORet (RRead n q er)) -> p <> [] -> q <> [].
Proof.
  unfold body_call, ybind, of_opt, yret, body_cmd. destruct (uexec _ _ _ _) as [h o] eqn:Hex. intros [= _ ->] Hp. apply uexec_ret, read_len in Hex.
  intros ->. by destruct p.
Qed.
Lemma discard_drains n : forall buf t s s' z err, buf <> [] -> discard_loop U fuel n (Some i) buf t s = (s', ORet (z, err)) ->
  exists m e, drained U fuel i s m e s' /\ z = wrap64 (t + m) /\ err = but_eof e.
Proof.
  induction n as [|n IH]; intros buf t s s' z err Hb H; cbn [discard_loop] in H; [done|]. cbv zeta in H. unfold ybind at 1 in H.
  destruct (body_call U fuel (Some i) (Read buf) s) as [s1 [r|e|]] eqn:Hc; [|done|done]. destruct r as [|nr q er| | | | | | |]; try done.
  pose proof (read_text _ _ _ _ Hc) as Hx. pose proof (read_full _ _ _ _ _ _ Hc Hb) as Hq. destruct er as [e|].
  - exists nr, e. assert (Hz : s1 = s' /\ wrap64 (t + nr) = z /\ but_eof e = err) by (destruct e; by injection H as <- <- <-).
    destruct Hz as (-> & <- & <-). split; [exact (drained_end U fuel i _ _ _ _ _ _ Hb Hx)|done].
  - destruct (IH _ _ _ _ _ _ Hq H) as (m & e & Hd & -> & ->). exists (nr + m), e. split; [exact (drained_more U fuel i _ _ _ _ _ _ _ _ Hb Hx Hd)|]. split; [|done].
    rewrite wrap64_add. f_equal. lia.
Qed.
Lemma copy_drains n u k : forall buf t s s' z err, buf <> [] -> stands u k true (world s) -> copy_loop U fuel n k (Some i) buf t s = (s', ORet (z, err)) ->
  exists m e, drained U fuel i s m e s' /\ err = but_eof e.
Proof.
  induction n as [|n IH]; intros buf t s s' z err Hb Hst H; cbn [copy_loop] in H; [done|]. cbv zeta in H. unfold ybind at 1 in H.
  destruct (body_call U fuel (Some i) (Read buf) s) as [s1 [r|e|]] eqn:Hc; [|done|done]. destruct r as [|nr q er| | | | | | |]; try done.
  pose proof (read_text _ _ _ _ Hc) as Hx. pose proof (read_full _ _ _ _ _ _ Hc Hb) as Hq.
  assert (Hst1 : stands u k true (world s1)).
  { rewrite body_call_some in Hc. pose proof (quiet_call U fuel (s_h s) i (Read buf) ltac:(done)) as Hs. destruct (uexec _ _ _ _) as [h1 o1]. injection Hc as <- _.
    by eapply stands_still. }
  assert (Hmid : exists t1, (match er with Some EOF => yret (t1, None) | Some e => yret (t1, Some e) | None => copy_loop U fuel n k (Some i) q t1 end) s1 = (s', ORet (z, err))).
  { unfold ybind at 1 in H. destruct (nr >? 0); [|exists t; exact H]. unfold ybind at 1 in H.
    destruct (slice q 0 nr) as [p|] eqn:Hsl; [|done]. unfold ybind at 1 in H. unfold on_writer at 1 in H. fold (world s1) in H.
    destruct (any_Write U k p (world s1)) as [w' res] eqn:Hw. destruct (write_k U u k true _ _ _ _ Hst1 Hw) as [_ [-> ->]].
    assert (Hss : put_h s1 (heap_w (s_h s1) (world s1)) = s1) by (by destruct s1 as [[]]). rewrite Hss in H.
    pose proof (RunFacts.slice_len _ _ _ _ Hsl) as Hl. replace ((zlen p <? 0) || (nr <? zlen p)) with false in H by (pose proof (zlen_nonneg p); lia).
    replace (nr =? zlen p) with true in H by lia. cbn [negb] in H. exists (wrap64 (t + zlen p)). exact H. }
  destruct Hmid as [t1 H1]. destruct er as [e|].
  - exists nr, e. assert (Hz : s1 = s' /\ but_eof e = err) by (destruct e; by injection H1 as <- <- <-). destruct Hz as (-> & <-). split; [exact (drained_end U fuel i _ _ _ _ _ _ Hb Hx)|done].
  - destruct (IH _ _ _ _ _ _ Hq Hst1 H1) as (m & e & Hd & ->). exists (nr + m), e. split; [exact (drained_more U fuel i _ _ _ _ _ _ _ _ Hb Hx Hd)|done].
Qed.
Lemma buffers : copy_buffer <> [] /\ discard_buffer <> [].
Proof. exact (conj (proj1 copy_buffer_ok) (proj1 discard_buffer_ok)). Qed.
Lemma readfrom_drains k x s s' z err : of_reader s i -> v_objs (world s) !! (k : wid) = Some (WWrap x) -> ww_status x <> 0 -> ww_isHEAD x || (ww_status x =? 204) = true ->
  wrap_ReadFrom U fuel k (Some i) s = (s', ORet (z, err)) -> exists m e, drained U fuel i s m e s' /\ z = wrap64 m /\ err = but_eof e.
Proof.
  intros Hr Hk Hs Hq H. unfold of_reader in Hr. destruct (h_b (s_h s) !! i) as [b|] eqn:Hb; [|done].
  assert (Hw : is_WriterTo b = false) by (by destruct b). unfold wrap_ReadFrom in H. unfold ybind at 1, on_writer at 1 in H. fold (world s) in H. rewrite (maybe_noop U k (world s) x) in H by done.
  assert (Hss : put_h s (heap_w (s_h s) (world s)) = s) by (by destruct s as [[]]). rewrite Hss in H.
  unfold ybind at 1, lookup_wrap at 1, ybind at 1, lookup_w at 1 in H. fold (world s) in H. rewrite Hk in H. cbn [yret] in H.
  change (ww_status x =? StatusNoContent) with (ww_status x =? 204) in H. rewrite Hq in H.
  unfold copy_discard, ybind at 1, lookup_b at 1 in H. rewrite Hb, Hw in H. exact (discard_drains _ _ _ _ _ _ _ (proj2 buffers) H).
Qed.
Lemma io_copy_drains u k s s' z err : of_reader s i -> stands u k true (world s) -> io_Copy U fuel k (Some i) s = (s', ORet (z, err)) ->
  exists m e, drained U fuel i s m e s' /\ err = but_eof e.
Proof.
  intros Hr Hst H. pose proof Hr as Hr0. unfold of_reader in Hr0. destruct (h_b (s_h s) !! i) as [b|] eqn:Hb; [|done]. assert (Hw : is_WriterTo b = false) by (by destruct b).
  unfold io_Copy in H. unfold ybind at 1, lookup_b at 1 in H. rewrite Hb, Hw in H. unfold ybind at 1, lookup_w at 1 in H. fold (world s) in H.
  pose proof Hst as Hs0. unfold stands in Hs0. destruct (v_objs (world s) !! k) as [obj|] eqn:Hk; [|done]. destruct obj as [|u'|x]; [done|by destruct Hs0|].
  destruct (any_ReaderFrom U (WWrap x)).
  - unfold any_ReadFrom in H. unfold ybind at 1, lookup_w at 1 in H. fold (world s) in H. rewrite Hk in H. destruct Hs0 as (_ & Hs & Hq).
    destruct (readfrom_drains k x s s' z err Hr Hk Hs (eq_sym Hq) H) as (m & e & Hd & _ & He). by exists m, e.
  - exact (copy_drains _ u k _ _ _ _ _ _ (proj1 buffers) Hst H).
Qed.
Theorem head_readfrom : forall k s st s' z err, of_reader s i -> reports U fuel s k WStatus (YInt st) -> st <> 0 -> bodiless s k st = true ->
  texec U fuel (TDo (RWriter k (WReadFrom i))) s = (s', ORet (YCount z err)) ->
  exists m e, drained U fuel i s m e s' /\ z = wrap64 m /\ err = but_eof e.
Proof.
  intros k s st s' z err Hr Hrep Hst Hbl H. unfold bodiless in Hbl. destruct (v_objs (world s) !! k) as [[| |x]|] eqn:Hk; try done.
  assert (Hsx : ww_status x = st). { unfold reports in Hrep. cbn in Hrep. unfold ybind, w_do, ybind, lookup_w in Hrep. fold (world s) in Hrep. rewrite Hk in Hrep. by injection Hrep. }
  cbn in H. unfold w_do, ybind at 1, lookup_w at 1 in H. fold (world s) in H. rewrite Hk in H. destruct (any_ReaderFrom U (WWrap x)); [|done].
  unfold ybind at 1, any_ReadFrom in H. unfold ybind at 1, lookup_w at 1 in H. fold (world s) in H. rewrite Hk in H.
  destruct (wrap_ReadFrom U fuel k (Some i) s) as [s1 [[z1 e1]|e|]] eqn:Hw; [|done|done]. injection H as <- <- <-.
  apply (readfrom_drains k x s _ _ _ Hr Hk); [congruence|by rewrite Hsx|exact Hw].
Qed.

(** ** Serve *)
Let any (v v' : V) : Prop := True.
Lemma any_calm : calm U any. Proof. by constructor. Qed.
Theorem head_serve : forall s r x k s', of_reader s i -> s_rps s !! r = Some x -> rp_body x = Some i -> bodiless s k (rp_code x) = true ->
  texec U fuel (TDo (RServe r k)) s = (s', ORet (YErr None)) ->
  exists s0 s1 m, s_h s0 = heap_w (s_h s) (world s0) /\ drained U fuel i s0 m EOF s1 /\ texec U fuel (TDo (RB (Call i Close))) s1 = (s', ORet (YBody (RErr None))).
Proof.
  intros s r x k s' Hrd Hr Hx Hbl Hex. rewrite (texec_serve U fuel s r x k Hr) in Hex.
  assert (Ht : exists by_ u, target s k = Some (by_, u)).
  { unfold bodiless in Hbl. unfold target. destruct (v_objs (world s) !! k) as [[]|]; try done. eauto. }
  destruct Ht as (by_ & u & Ht).
  destruct (serve_begin U fuel any any_calm ltac:(done) ltac:(done) s x k) as (s1 & (Ho & _) & Hs).
  destruct Hs as [(o1 & Hs & Ho1)|Hs]; rewrite Hs in Hex; [destruct o1; injection Hex; intros; congruence|].
  pose proof (ow_target _ _ k Ho) as Ht1. rewrite Ht in Ht1.
  destruct (serve_rest U fuel x k s1) as [s2 o2] eqn:Hs2. destruct o2 as [er| |]; try done. injection Hex as -> ->.
  destruct (rest_run U fuel s1 x k by_ u s' (ORet None) Ht1 Hs2) as [(_ & _ & e & ?)|(h' & hdrs & s3 & w & ow & -> & Hm & Hc & Hwh & _)]; [done|].
  unfold serve_rest in Hs2. unfold ybind at 1 in Hs2. assert (Hh : any_Header U k s1 = (s1, ORet (u_map U (v_v (world s1)) u))).
  { unfold any_Header, target in *. fold (world s1). destruct (v_objs (world s1) !! k) as [[]|]; try done; by injection Ht1 as <- <-. }
  rewrite Hh in Hs2. unfold ybind at 1 in Hs2. rewrite Hm in Hs2. unfold ybind at 1 in Hs2. rewrite Hc in Hs2. unfold ybind at 1 in Hs2. rewrite Hwh in Hs2.
  assert (H3 : s_h s3 = s_h s1).
  { unfold copy_to in Hc. case_bool_decide; [by injection Hc as <-|]. unfold ybind, the_map in Hc. destruct (s_maps s1 !! _); [|done]. injection Hc as <-. done. }
  assert (Ht3 : target s3 k = Some (by_, u)) by (unfold target, world; rewrite H3; exact Ht1).
  destruct (WriteHeader_run U s3 k by_ u (rp_code x) Ht3) as (w' & ow' & Hwh' & _ & Hobj). rewrite Hwh in Hwh'. injection Hwh' as <- <-.
  set (s4 := put_h s3 (heap_w (s_h s3) w)) in *. destruct ow as [[]|e|]; [|done|done].
  specialize (Hobj eq_refl).
  assert (Hst : stands u k true (world s4)).
  { unfold stands. rewrite <- Hbl. unfold bodiless. change (world s4) with w. destruct Ho as (w1 & Hs1 & Hw1).
    assert (Hwo : v_objs (world s3) = v_objs (world s)) by (unfold world; rewrite H3, Hs1; exact Hw1). rewrite Hobj, Hwo.
    unfold target in Ht. destruct (v_objs (world s) !! k) as [[|u'|y]|] eqn:Hk; try done.
    - rewrite Hk. by injection Ht as <- <-.
    - rewrite list_lookup_insert by (eapply lookup_lt_Some; exact Hk). injection Ht as <- <-. split; [done|]. split; [|done]. cbn. intros Hz.
      unfold any_WriteHeader in Hwh. unfold ybind at 1 in Hwh. unfold lookup_w at 1 in Hwh. fold (world s3) in Hwh. rewrite Hwo, Hk in Hwh.
      unfold on_writer, wrap_WriteHeader, wbind, wnote, wassert in Hwh. rewrite Hz in Hwh. cbn in Hwh. done. }
  assert (Hs4 : s_h s4 = heap_w (s_h s) (world s4)).
  { destruct Ho as (w1 & Hs1 & Hw1). unfold s4. cbn. rewrite H3, Hs1. done. }
  assert (Hrd4 : of_reader s4 i) by (unfold of_reader in *; by rewrite Hs4).
  rewrite Hx in Hs2. unfold ybind at 1 in Hs2. destruct (io_Copy U fuel k (Some i) s4) as [s5 [[z er]|e|]] eqn:Hcp; [|done|done].
  destruct (io_copy_drains u k s4 s5 z er Hrd4 Hst Hcp) as (m & e & Hd & ->).
  unfold ybind at 1 in Hs2. rewrite body_call_some in Hs2. destruct (uexec U fuel (s_h s5) (Call i Close)) as [h6 [rr|e'|]] eqn:Hcl; [|done|done].
  destruct rr as [| |err2| | | | | |]; try done. injection Hs2 as <- He. assert (e = EOF /\ err2 = None) as [-> ->] by (by destruct e).
  exists s4, s5, m. split; [done|]. split; [done|]. cbn. unfold ybind, body_cmd. by rewrite Hcl.
Qed.
End Drain.
