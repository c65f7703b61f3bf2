(** * Programs over Readers that panic (proofs) *)
From stdpp Require Import gmap.
From Coq Require Import ZifyBool.
From Verif Require Export Panics Any.

Section X.
Context {W : Type} (E : env W) (P : hazard W) (fuel : nat).
Implicit Types h : heap W.

(** ** What every run leaves alone *)
Lemma xrun_writesB {A} Q (m : prog A) h h' o :
  writesB Q m -> xrun E P h m = (h', o) ->
  (exists evs, h_log h' = h_log h ++ evs) /\ (length (h_b h) <= length (h_b h'))%nat /\
  forall i, ~ Q i -> (i < length (h_b h))%nat -> h_b h' !! i = h_b h !! i.
Proof.
  revert h. induction m as [a|e| |X a k IH]; intros h Hw Hr; cbn in Hr;
    try (injection Hr as <- <-; split; [exists []; by rewrite app_nil_r|split; [lia|done]]).
  destruct (hits P h a) as [[w e]|]; [injection Hr as <- <-; split; [exists []; by rewrite app_nil_r|split; [cbn; lia|done]]|].
  destruct (act_step E h a) as [[h1 x]|] eqn:Ha.
  2:{ injection Hr as <- <-. split; [exists []; by rewrite app_nil_r|split; [lia|done]]. }
  cbn in Hw. destruct Hw as [Hw1 Hw2].
  specialize (IH x h1 (Hw2 x) Hr) as [[e2 IHe] [IHl IHi]]. pose proof (act_log E _ _ _ _ Ha) as [e1 He1].
  split; [exists (e1 ++ e2); by rewrite IHe, He1, app_assoc|].
  assert (Hs : (length (h_b h) <= length (h_b h1))%nat /\
               forall i, ~ Q i -> (i < length (h_b h))%nat -> h_b h1 !! i = h_b h !! i).
  { assert (Hone : run E h (Do a (fun _ => Ret tt)) = (h1, ORet tt)) by (cbn; by rewrite Ha).
    eapply (run_writesB E Q (Do a (fun _ => Ret tt))); [|exact Hone]. cbn. auto. }
  destruct Hs as [Hs1 Hs2]. split; [lia|].
  intros i Hi Hlt. rewrite IHi by (auto; lia). auto.
Qed.
Lemma xexec_frame h c h' o :
  xexec E P fuel h c = (h', o) ->
  (exists evs, h_log h' = h_log h ++ evs) /\ (length (h_b h) <= length (h_b h'))%nat /\
  forall i b, (forall f, c <> Call i f) -> h_b h !! i = Some b -> h_b h' !! i = Some b.
Proof.
  intros H. unfold xexec in H. pose proof (xrun_writesB _ _ _ _ _ (wb_cmd fuel h c) H) as [H0 [H1 H2]].
  split; [done|]. split; [done|]. intros i b Hi Hb. rewrite H2; [done| |by eapply lookup_lt_Some].
  intros [f ->]. by eapply Hi.
Qed.
Lemma xexec_feasible h c h' o : xexec E P fuel h c = (h', o) -> feasible h' -> feasible h.
Proof.
  intros Hx [H1 H2]. apply xexec_frame in Hx as [[evs He] [Hl _]]. rewrite He, total_read_app in H2. pose proof (total_read_nonneg evs).
  split; [unfold zlen in *; lia|lia].
Qed.
Lemma xhistory_log cs : forall h h' os, xhistory E P fuel h cs = (h', os) -> exists X, h_log h' = h_log h ++ X.
Proof.
  induction cs as [|c cs IH]; intros h h' os H; cbn in H; [injection H as <- <-; exists []; by rewrite app_nil_r|].
  destruct (xexec E P fuel h c) as [h1 o] eqn:Hex. apply xexec_frame in Hex as [[X1 HX1] _].
  destruct o; [destruct (xhistory E P fuel h1 cs) as [h2 os'] eqn:Hh..|]; injection H as <- <-; try (by exists X1);
    apply IH in Hh as [X2 HX2]; exists (X1 ++ X2); by rewrite HX2, HX1, app_assoc.
Qed.
Lemma xhistory_feasible cs : forall h h' os, xhistory E P fuel h cs = (h', os) -> feasible h' -> feasible h.
Proof.
  induction cs as [|c cs IH]; intros h h' os H Hf; cbn in H; [by injection H as <- <-|].
  destruct (xexec E P fuel h c) as [h1 o] eqn:Hex.
  assert (feasible h1); [|by eapply xexec_feasible].
  destruct o; [destruct (xhistory E P fuel h1 cs) eqn:Hh..|]; injection H as <- <-; eauto.
Qed.

(** A program, step by step: [I] is kept by every call. *)
Lemma xhistory_inv (I : heap W -> Prop) cs : forall h h' os,
  (forall h c h' o, I h -> c ∈ cs -> feasible h' -> xexec E P fuel h c = (h', o) -> I h') ->
  I h -> feasible h' -> xhistory E P fuel h cs = (h', os) -> I h'.
Proof.
  induction cs as [|c cs IH]; intros h h' os Hst Hi Hf H; cbn in H; [by injection H as <- <-|].
  destruct (xexec E P fuel h c) as [h1 o] eqn:Hex.
  assert (Hf1 : feasible h1).
  { destruct o; [destruct (xhistory E P fuel h1 cs) as [h2 os'] eqn:Hh..|]; injection H as <- <-; [by eapply xhistory_feasible..|done]. }
  assert (Hi1 : I h1) by (eapply Hst; [exact Hi| |exact Hf1|exact Hex]; by left).
  destruct o; [destruct (xhistory E P fuel h1 cs) as [h2 os'] eqn:Hh..|]; injection H as <- <-; [..|done];
    (eapply IH; [|exact Hi1|exact Hf|exact Hh]); intros; eapply Hst; try done; by right.
Qed.

Hypothesis Hge : go_env E.
Hypothesis Hsp : spares_close P.

Lemma xreaches_wf h : xreaches E P fuel h -> Verif.Wf.wf h.
Proof.
  intros (w & cs & os & Hgo & Hh & Hf). eapply (xhistory_inv Verif.Wf.wf cs); [|apply wf_initial|exact Hf|exact Hh].
  intros h0 c h1 o Hw Hc Hf1 Hx. eapply xexec_wf; try done. rewrite Forall_forall in Hgo. by apply Hgo.
Qed.

Lemma no_other_panic h c h' e :
  rule_abiding E -> xreaches E P fuel h -> go_cmd c -> known h c -> xexec E P fuel h c = (h', OPanic e) -> raised P e /\ may_panic c.
Proof.
  intros Hra Hre Hgo Hkn Hx. pose proof (xreaches_wf h Hre) as Hwf. destruct Hre as (_ & _ & _ & _ & _ & Hf).
  destruct (xexec_cases E P fuel h c h' _ Hwf Hsp Hx) as [Hex|(e' & [= <-] & Hp)]; [|by eapply panicked_raised].
  by destruct (no_panic E fuel h c h' _ e Hra Hwf Hf Hgo Hkn Hex).
Qed.

(** ** One panic *)
Lemma near_not r h r' hs call :
  near E h r' hs call -> r' <> r -> calls_on r (h_log hs) = calls_on r (h_log h).
Proof.
  intros Hn Hne. apply near_heap in Hn as (evs & _ & _ & -> & _ & _ & Hr). rewrite calls_on_app, (calls_on_none r evs), app_nil_r; [done|].
  eapply Forall_impl; [exact Hr|]. cbn. intros ev ->. congruence.
Qed.
Lemma reader_at_ext h h' k : h_c h' = h_c h -> reader_at h' k = reader_at h k.
Proof. unfold reader_at. by intros ->. Qed.

Lemma panicked_unowned r h c h' e :
  unowned r h -> go_cmd c -> ~ wraps r c -> feasible h' -> panicked E P h c h' e -> unowned r h'.
Proof.
  intros Hu Hgo Hnw Hf [r' hs call w Hc Hn HP ->|fuel' i p b hs call w -> Hb Hex HP ->].
  - pose proof (near_wf E _ _ _ _ (un_wf _ _ Hu) Hn) as Hwf. assert (Hne : r' <> r).
    { intros ->. destruct Hc as [?|(i & f & o & k & _ & _ & _ & _ & _ & Hk)]; [done|]. by apply (un_rd _ _ Hu k). }
    pose proof (near_not r h _ _ _ Hn Hne) as Hl. apply near_heap in Hn as (evs & _ & Hcc & _).
    constructor; [by apply wf_set_w| |].
    + intros k. rewrite (reader_at_ext h); [apply Hu|done].
    + change (calls_on r (h_log hs) = []). rewrite Hl. apply Hu.
  - assert (Hu' : unowned r hs) by (eapply (unowned_step E fuel'); try done). destruct Hu' as [? H2 H3]. constructor; [by apply wf_set_w|exact H2|exact H3].
Qed.
Lemma own_near r c t h r' hs call : own r c t h -> near E h r' hs call -> own r c t hs.
Proof.
  intros Ho Hn. pose proof (near_wf E _ _ _ _ (ow_wf _ _ _ _ Ho) Hn) as Hwf. apply near_heap in Hn as (evs & Hb & Hc & _).
  destruct Ho as [O1 O2 O3 O4 O5 O6 O7]. constructor; rewrite ?Hb, ?Hc, ?(reader_at_ext h hs c Hc); try done.
  intros k. rewrite (reader_at_ext h hs k Hc). apply O7.
Qed.
Lemma own_set_w r c t h w : own r c t h -> own r c t (set_w h w).
Proof. intros [O1 O2 O3 O4 O5 O6 O7]. constructor; try done. by apply wf_set_w. Qed.

Lemma near_live live r h r' hs call : until_closed E r live -> near E h r' hs call -> live (h_w h) -> live (h_w hs).
Proof.
  intros Huc [_ [->|(off & wh & x & Hx)]] Hl; [done|]. pose proof (uc_seek _ _ _ Huc (h_w h) r' off wh Hl) as Hs.
  cbn in Hx. destruct (ev_seek E (h_w h) r' off wh) as [w1 [n err]]. injection Hx as <- _. exact Hs.
Qed.

Lemma panicked_src k r live d early D c t h cmd h' e :
  match k with KAt => serves_at E r live d early | KSeek => serves_seek E r live d early end -> (D <= length d)%nat ->
  keeps P live -> src_inv k r live D c t h -> go_cmd cmd -> ~ wraps r cmd -> feasible h' -> panicked E P h cmd h' e -> src_inv k r live D c t h'.
Proof.
  intros Hs HD Hk Hsi Hgo Hnw Hf Hp. assert (Huc : until_closed E r live) by (destruct k; apply Hs).
  destruct Hp as [r' hs call w Hc Hn HP ->|fuel' i p b hs call w -> Hb Hex HP ->].
  - pose proof (own_near _ _ _ _ _ _ _ (sr_own _ _ _ _ _ _ _ Hsi) Hn) as Ho. pose proof (near_live live r _ _ _ _ Huc Hn) as Hl.
    apply near_heap in Hn as (evs & Hb & Hcc & _). destruct Hsi as [S1 S2 S3 S4 S5 S6].
    constructor; cbn [set_w h_b h_c h_w]; rewrite ?Hb, ?Hcc; try done; [by apply own_set_w|]. intros Ha. eapply Hk; [exact HP|]. apply Hl. auto.
  - pose proof (src_step E fuel' k r live d early D Hs HD c t h _ hs _ Hge Hsi Hgo Hnw Hf Hex) as Hst. cbn in Hst.
    assert (Hsi' : src_inv k r live D c t hs).
    { destruct (t !! i) as [st|]; [|done]. destruct Hst as (? & ? & ? & _). done. }
    destruct Hsi' as [S1 S2 S3 S4 S5 S6]. constructor; try done; [by apply own_set_w|]. intros Ha. eapply Hk; [exact HP|]. cbn. auto.
Qed.

Lemma panicked_stream r c D t h cmd h' e :
  stream_inv r c D t h -> go_cmd cmd -> ~ wraps r cmd -> feasible h' -> panicked E P h cmd h' e -> stream_inv r c D t h'.
Proof.
  intros Hsi Hgo Hnw Hf [r' hs call w Hc Hn HP ->|fuel' i p b hs call w -> Hb Hex HP ->].
  - pose proof (own_near _ _ _ _ _ _ _ (si_own _ _ _ _ _ Hsi) Hn) as Ho. assert (Hne : r' <> r).
    { intros ->. destruct Hc as [?|(i & f & o & k & _ & _ & Hi & Hsk & Hbc & Hk)]; [done|].
      destruct (decide (k = c)) as [->|Hkc]; [|by apply (ow_uniq _ _ _ _ (si_own _ _ _ _ _ Hsi) k)].
      destruct (si_cm _ _ _ _ _ Hsi) as (cm & Hcm & _). pose proof (wf_b _ (ow_wf _ _ _ _ (si_own _ _ _ _ _ Hsi)) _ _ Hi) as Hwb.
      destruct o as [|b|b|b|b|b]; try done; cbn in Hwb, Hbc; [destruct (sb_closed b)|destruct (rb_closed b)]; try congruence;
        destruct Hwb as (_ & c' & x & Hc' & Hx); congruence. }
    pose proof (near_not r h _ _ _ Hn Hne) as Hl. apply near_heap in Hn as (evs & Hb & Hcc & _). destruct Hsi as [S1 S2 S3 S4 S5 S6].
    constructor; cbn [set_w h_b h_c h_log]; rewrite ?Hb, ?Hcc, ?Hl; try done. by apply own_set_w.
  - destruct (stream_step E fuel' r c D t h _ hs _ Hge Hsi Hgo Hnw Hf Hex) as [[S1 S2 S3 S4 S5 S6] _]. cbn in *.
    constructor; cbn [set_w h_b h_c h_log]; try done. by apply own_set_w.
Qed.

Lemma panicked_streamed r gp d er h cmd h' e :
  streams E r gp d er -> holds_position P gp -> panicked E P h cmd h' e -> streamed r gp d er h -> streamed r gp d er h'.
Proof.
  intros Hst Hhp Hp Hs.
  assert (Hw : forall hs w call, P (h_w hs) call = Some (w, e) -> streamed r gp d er hs -> streamed r gp d er (set_w hs w)).
  { intros hs w call HP Hss. unfold streamed. cbn. rewrite (Hhp _ _ _ _ HP). exact Hss. }
  destruct Hp as [r' hs call w Hc Hn HP ->|fuel' i p b hs call w -> Hb Hex HP ->].
  - eapply Hw; [exact HP|]. destruct Hn as [_ [->|(off & wh & x & Hx)]]; [done|]. by eapply (act_streamed E r gp d er Hst).
  - eapply Hw; [exact HP|]. unfold exec in Hex. by eapply run_streamed.
Qed.

(** ** Programs *)
Lemma xunowned_step r h c h' o :
  unowned r h -> go_cmd c -> ~ wraps r c -> feasible h' -> xexec E P fuel h c = (h', o) -> unowned r h'.
Proof.
  intros Hu Hgo Hnw Hf Hx. destruct (xexec_cases E P fuel h c h' o (un_wf _ _ Hu) Hsp Hx) as [Hex|(e & -> & Hp)];
    [by eapply (unowned_step E fuel)|by eapply panicked_unowned].
Qed.
Lemma xunowned r cs w h os :
  Forall go_cmd cs -> Forall (fun c => ~ wraps r c) cs -> feasible h -> xhistory E P fuel (initial w) cs = (h, os) -> unowned r h.
Proof.
  intros Hgo Hnw Hf H. rewrite Forall_forall in Hgo. rewrite Forall_forall in Hnw.
  eapply (xhistory_inv (unowned r) cs); [|apply unowned_initial|exact Hf|exact H].
  intros h0 c h1 o Hu Hc Hf1 Hx. eapply xunowned_step; eauto.
Qed.
(** The constructor that makes the Body returns, so nothing panicked in it. *)
Lemma xwrapped r w h1 i cs h2 os :
  xwrapped_once E P fuel r w h1 i cs h2 os ->
  exists cs0 os0 h0 new, Forall go_cmd cs0 /\ Forall (fun c => ~ wraps r c) cs0 /\ xhistory E P fuel (initial w) cs0 = (h0, os0) /\ feasible h0 /\
    unowned r h0 /\ go_cmd new /\ wraps r new /\ feasible h1 /\
    exec E fuel h0 new = (h1, ORet (RBody i None)) /\ Forall go_cmd cs /\ Forall (fun c => ~ wraps r c) cs /\
    xhistory E P fuel h1 cs = (h2, os) /\ feasible h2.
Proof.
  intros (_ & cs0 & os0 & h0 & new & Hgo & Hnw & Hw & H0 & H1 & H2 & Hf).
  apply Forall_app in Hgo as [Hgo0 Hgo]. apply Forall_cons in Hgo as [Hg1 Hg2]. apply Forall_app in Hnw as [Hnw0 Hnw].
  assert (Hf1 : feasible h1) by (by eapply xhistory_feasible).
  assert (Hf0 : feasible h0) by (by eapply xexec_feasible).
  pose proof (xunowned r cs0 w h0 os0 Hgo0 Hnw0 Hf0 H0) as Hu.
  exists cs0, os0, h0, new. do 8 (split; [done|]). split; [|done].
  destruct (xexec_cases E P fuel h0 new h1 _ (un_wf _ _ Hu) Hsp H1) as [Hex|(e & ? & _)]; done.
Qed.

Section Src.
Context (k : skind) (r : rid) (live : W -> Prop) (d : bytes) (early : bool) (D : nat).
Hypothesis Hs : match k with KAt => serves_at E r live d early | KSeek => serves_seek E r live d early end.
Hypothesis HD : (D <= length d)%nat.
Hypothesis Hk : keeps P live.

(** A Reader not called in Close stays usable. *)
Lemma xrun_live {A} (m : prog A) : until_closed E r live -> forall h h' o,
  xrun E P h m = (h', o) -> live (h_w h) ->
  exists evs, h_log h' = h_log h ++ evs /\ (Forall not_close (calls_on r evs) -> live (h_w h')).
Proof.
  intros Huc. induction m as [a|ex| |X a g IH]; intros h h' o; cbn; try (intros [= <- _] Hl; exists []; by rewrite app_nil_r).
  destruct (hits P h a) as [[w e]|] eqn:Hh.
  { intros [= <- _] Hl. exists []. cbn. rewrite app_nil_r. split; [done|]. intros _. unfold hits in Hh. destruct (call_of a); [|done]. by eapply Hk. }
  destruct (act_step E h a) as [[h1 x]|] eqn:Ha; [|intros [= <- _] Hl; exists []; by rewrite app_nil_r].
  intros Hr Hl.
  assert (Hone : run E h (Do a (fun _ => Ret tt)) = (h1, ORet tt)) by (cbn; by rewrite Ha).
  destruct (run_live E r live _ Huc _ _ _ Hone Hl) as (evs1 & H1 & H2).
  assert (Hsp' : exists evs2, h_log h' = h_log h1 ++ evs2).
  { eapply (xrun_writesB (fun _ => True) (g x)); [|exact Hr]. clear. induction (g x); cbn; auto. split; [by destruct a|auto]. }
  destruct Hsp' as (evs2 & H3). exists (evs1 ++ evs2). rewrite H3, H1, app_assoc. split; [done|].
  rewrite calls_on_app. intros Hf. apply Forall_app in Hf as [Hf1 Hf2].
  destruct (IH x h1 h' o Hr (H2 Hf1)) as (evs3 & H4 & H5). rewrite H3 in H4. apply app_inv_head in H4 as ->. auto.
Qed.
Lemma xhistory_live cs : until_closed E r live -> forall h h' os,
  xhistory E P fuel h cs = (h', os) -> live (h_w h) ->
  exists evs, h_log h' = h_log h ++ evs /\ (Forall not_close (calls_on r evs) -> live (h_w h')).
Proof.
  intros Huc. induction cs as [|cmd cs IH]; intros h h' os H Hl; cbn in H; [injection H as <- <-; exists []; by rewrite app_nil_r|].
  destruct (xexec E P fuel h cmd) as [h1 o] eqn:Hex. destruct (xrun_live _ Huc _ _ _ Hex Hl) as (evs1 & H1 & H2).
  assert (Hgen : forall h2 os', xhistory E P fuel h1 cs = (h2, os') -> h' = h2 ->
    exists evs, h_log h' = h_log h ++ evs /\ (Forall not_close (calls_on r evs) -> live (h_w h'))).
  { intros h2 os' Hh ->. destruct (xhistory_log _ _ _ _ Hh) as [evs2 H3].
    exists (evs1 ++ evs2). rewrite H3, H1, app_assoc. split; [done|]. rewrite calls_on_app. intros Hf. apply Forall_app in Hf as [Hf1 Hf2].
    destruct (IH _ _ _ Hh (H2 Hf1)) as (evs3 & H4 & H5). rewrite H3 in H4. apply app_inv_head in H4 as ->. auto. }
  destruct o; [destruct (xhistory E P fuel h1 cs) as [h2 os'] eqn:Hh; injection H as <- <-; by eapply Hgen..|]. injection H as <- <-. eauto.
Qed.

Lemma xsrc_trace c cs : forall t h h' os,
  src_inv k r live D c t h -> Forall go_cmd cs -> Forall (fun c => ~ wraps r c) cs -> feasible h' ->
  xhistory E P fuel h cs = (h', os) ->
  fam_trace (first_bytes r early (Z.of_nat D) d) t (fst (without_panics cs os)) (snd (without_panics cs os)).
Proof.
  induction cs as [|cmd cs IH]; intros t h h' os Hsi Hgo Hnw Hf H; cbn in H; [by injection H as <- <-|].
  apply Forall_cons in Hgo as [Hg1 Hg2]. apply Forall_cons in Hnw as [Hn1 Hn2].
  destruct (xexec E P fuel h cmd) as [h1 o] eqn:Hex.
  assert (Hf1 : feasible h1).
  { destruct o; [destruct (xhistory E P fuel h1 cs) as [h2 os'] eqn:Hh..|]; injection H as <- <-; [by eapply xhistory_feasible..|done]. }
  pose proof (ow_wf _ _ _ _ (sr_own _ _ _ _ _ _ _ Hsi)) as Hwf.
  destruct (xexec_cases E P fuel h cmd h1 o Hwf Hsp Hex) as [Hex'|(e & -> & Hp)].
  2: { destruct (xhistory E P fuel h1 cs) as [h2 os'] eqn:Hh. injection H as <- <-. cbn.
       destruct (without_panics cs os') as [cs' os''] eqn:Hwp. cbn. change cs' with (fst (cs', os'')). change os'' with (snd (cs', os'')) at 2.
       rewrite <- Hwp. eapply (IH t h1 h2); try done. by eapply panicked_src. }
  pose proof (src_step E fuel k r live d early D Hs HD c t h cmd h1 o Hge Hsi Hg1 Hn1 Hf1 Hex') as Hst.
  destruct o as [x|e|].
  - destruct (xhistory E P fuel h1 cs) as [h2 os'] eqn:Hh. injection H as <- <-. cbn [without_panics].
    destruct (without_panics cs os') as [cs' os''] eqn:Hwp. cbn [fst snd].
    assert (HI : forall t', src_inv k r live D c t' h1 -> fam_trace (first_bytes r early (Z.of_nat D) d) t' cs' os'').
    { intros t' Ht'. pose proof (IH t' h1 h2 os' Ht' Hg2 Hn2 Hf Hh) as Htr. by rewrite Hwp in Htr. }
    destruct cmd as [i f| | | | | | |]; try (by apply HI). cbn [fam_trace].
    destruct (t !! i); [|by apply HI]. destruct Hst as (y & t' & [= ->] & Hfs & Hsi'). exists t'. auto.
  - destruct (xhistory E P fuel h1 cs) as [h2 os'] eqn:Hh. injection H as <- <-. cbn [without_panics].
    destruct (without_panics cs os') as [cs' os''] eqn:Hwp. cbn [fst snd].
    assert (HI : forall t', src_inv k r live D c t' h1 -> fam_trace (first_bytes r early (Z.of_nat D) d) t' cs' os'').
    { intros t' Ht'. pose proof (IH t' h1 h2 os' Ht' Hg2 Hn2 Hf Hh) as Htr. by rewrite Hwp in Htr. }
    destruct cmd as [i f| | | | | | |]; try (by apply HI).
    destruct (t !! i); [|by apply HI]. by destruct Hst as (y & t' & ? & _).
  - injection H as <- <-. cbn [without_panics]. destruct (without_panics cs []) as [cs' os''] eqn:Hwp.
    assert (cs' = [] /\ os'' = []) as [-> ->] by (by destruct cs; injection Hwp as <- <-). cbn [fst snd].
    destruct cmd as [i f| | | | | | |]; try done. cbn [fam_trace]. destruct (t !! i); [|done]. destruct Hst as (y & t' & ? & _). done.
Qed.
End Src.

Lemma xcursors k r live d early w h1 i cs h2 os D :
  match k with KAt => serves_at E r live d early | KSeek => serves_seek E r live d early end ->
  match k with KAt => cp_readerat (ev_caps E r) = true | KSeek => cp_readerat (ev_caps E r) = false /\ cp_seeker (ev_caps E r) = true end ->
  keeps P live -> live w -> xwrapped_once E P fuel r w h1 i cs h2 os -> announces E fuel h1 i D -> 0 <= D <= zlen d ->
  fam_trace (first_bytes r early D d) {[ i := At 0 false ]} (fst (without_panics cs os)) (snd (without_panics cs os)).
Proof.
  intros Hs Hk Hkp Hl Hw Hann HD. unfold zlen in HD. assert (exists n, D = Z.of_nat n) as [n ->] by (exists (Z.to_nat D); lia).
  assert (Huc : until_closed E r live) by (destruct k; apply Hs).
  apply xwrapped in Hw as (cs0 & os0 & h0 & new & Hgo0 & Hnw0 & H0 & Hf0 & Hu & Hg1 & Hwr & Hf1 & H1 & Hg2 & Hnw & H2 & Hf).
  assert (Hl0 : live (h_w h0)).
  { destruct (xhistory_live r live Hkp cs0 Huc _ _ _ H0 Hl) as (evs & Hlog & Hli). apply Hli. cbn in Hlog. rewrite <- Hlog, (un_log _ _ Hu). constructor. }
  assert (Hsi : src_inv k r live n (length (h_c h0)) {[ i := At 0 false ]} h1) by (eapply (src_new E fuel k r live d early n); try done; lia).
  eapply (xsrc_trace k r live d early n) with (h := h1) (h' := h2); try done; lia.
Qed.

Lemma xcursors_at r live d early w h1 i cs h2 os D :
  serves_at E r live d early -> cp_readerat (ev_caps E r) = true -> keeps P live ->
  live w -> xwrapped_once E P fuel r w h1 i cs h2 os -> announces E fuel h1 i D -> 0 <= D <= zlen d ->
  fam_trace (first_bytes r early D d) {[ i := At 0 false ]} (fst (without_panics cs os)) (snd (without_panics cs os)).
Proof. intros. by eapply (xcursors KAt). Qed.
Lemma xcursors_seek r live d early w h1 i cs h2 os D :
  serves_seek E r live d early -> cp_readerat (ev_caps E r) = false /\ cp_seeker (ev_caps E r) = true -> keeps P live ->
  live w -> xwrapped_once E P fuel r w h1 i cs h2 os -> announces E fuel h1 i D -> 0 <= D <= zlen d ->
  fam_trace (first_bytes r early D d) {[ i := At 0 false ]} (fst (without_panics cs os)) (snd (without_panics cs os)).
Proof. intros. by eapply (xcursors KSeek). Qed.

(** ** Streams *)
Lemma xstream_step r c D t h cmd h' o :
  stream_inv r c D t h -> go_cmd cmd -> ~ wraps r cmd -> feasible h' -> xexec E P fuel h cmd = (h', o) ->
  exec E fuel h cmd = (h', o) /\ stream_inv r c D (follow t cmd o) h' \/ (exists e, o = OPanic e /\ panicked E P h cmd h' e) /\ stream_inv r c D t h'.
Proof.
  intros Hsi Hg Hn Hf Hx. pose proof (ow_wf _ _ _ _ (si_own _ _ _ _ _ Hsi)) as Hwf.
  destruct (xexec_cases E P fuel h cmd h' o Hwf Hsp Hx) as [Hex|(e & -> & Hp)].
  - left. split; [done|]. by eapply stream_step.
  - right. split; [by exists e|]. by eapply panicked_stream.
Qed.
Lemma follow_panic t c e : follow t c (OPanic e) = t.
Proof. by destruct c as [i []| | | | | | |]. Qed.
Lemma xstream_history r c D cs t h h' os :
  stream_inv r c D t h -> Forall go_cmd cs -> Forall (fun c => ~ wraps r c) cs -> feasible h' ->
  xhistory E P fuel h cs = (h', os) -> exists t', stream_inv r c D t' h'.
Proof.
  intros Hsi Hgo Hnw Hf H. rewrite Forall_forall in Hgo. rewrite Forall_forall in Hnw.
  eapply (xhistory_inv (fun h => exists t', stream_inv r c D t' h) cs); [|by exists t|exact Hf|exact H].
  intros h0 cmd h1 o [t0 Ht0] Hc Hf1 Hx.
  destruct (xstream_step r c D t0 h0 cmd h1 o Ht0 (Hgo _ Hc) (Hnw _ Hc) Hf1 Hx) as [[_ ?]|[_ ?]]; eauto.
Qed.

Lemma xtrace_inv r c D cs : forall t h h' os,
  stream_inv r c D t h -> Forall go_cmd cs -> Forall (fun c => ~ wraps r c) cs -> feasible h' ->
  xhistory E P fuel h cs = (h', os) ->
  let L := calls_on r (h_log h') in
  stream_trace (exists ev, ev ∈ L /\ lies ev) (final_answer D (stream L) (terminal D L) r) t (fst (without_panics cs os)) (snd (without_panics cs os)).
Proof.
  induction cs as [|cmd cs IH]; intros t h h' os Hsi Hgo Hnw Hf H L; cbn in H; [by injection H as <- <-|].
  destruct (xstream_history r c D (cmd :: cs) t h h' os Hsi Hgo Hnw Hf H) as [tf [_ _ _ _ Hpol' _]].
  apply Forall_cons in Hgo as [Hg1 Hg2]. apply Forall_cons in Hnw as [Hn1 Hn2].
  destruct (xexec E P fuel h cmd) as [h1 o] eqn:Hex.
  assert (Hf1 : feasible h1 /\ exists X, h_log h' = h_log h1 ++ X).
  { destruct o; [destruct (xhistory E P fuel h1 cs) as [h2 os'] eqn:Hh..|]; injection H as <- <-;
      [split; [by eapply xhistory_feasible|by eapply xhistory_log]..|split; [done|exists []; by rewrite app_nil_r]]. }
  destruct Hf1 as [Hf1 [X HX]].
  destruct (xstream_step r c D t h cmd h1 o Hsi Hg1 Hn1 Hf1 Hex) as [[Hex' Hsi1]|[(e & -> & _) Hsi1]].
  2: { destruct (xhistory E P fuel h1 cs) as [h2 os'] eqn:Hh. injection H as <- <-. cbn [without_panics].
       pose proof (IH t h1 h2 os' Hsi1 Hg2 Hn2 Hf Hh) as Htr. by destruct (without_panics cs os') as [cs' os'']. }
  destruct (trace_step E fuel r c D t h cmd h1 o X Hge Hsi Hg1 Hn1 Hf1 Hex') as [_ [Hs _]]; [by rewrite <- HX|]. rewrite <- HX in Hs.
  destruct o as [x|e|].
  - destruct (xhistory E P fuel h1 cs) as [h2 os'] eqn:Hh. injection H as <- <-. cbn [without_panics].
    pose proof (IH _ h1 h2 os' Hsi1 Hg2 Hn2 Hf Hh) as Htr. destruct (without_panics cs os') as [cs' os'']. cbn [fst snd]. split; [exact Hs|exact Htr].
  - destruct (xhistory E P fuel h1 cs) as [h2 os'] eqn:Hh. injection H as <- <-. cbn [without_panics]. rewrite follow_panic in Hsi1.
    pose proof (IH _ h1 h2 os' Hsi1 Hg2 Hn2 Hf Hh) as Htr. by destruct (without_panics cs os') as [cs' os''].
  - injection H as <- <-. cbn [without_panics]. destruct (without_panics cs []) as [cs' os''] eqn:Hwp.
    assert (cs' = [] /\ os'' = []) as [-> ->] by (by destruct cs; injection Hwp as <- <-). cbn [fst snd]. split; [exact Hs|done].
Qed.

Lemma xone_stream r w h1 i cs h2 os D :
  xwrapped_once E P fuel r w h1 i cs h2 os -> streaming E fuel r h1 i D ->
  let L := calls_on r (h_log h2) in
  polite r D L /\ (0 <= D -> zlen (stream L) <= D) /\
  stream_trace (exists ev, ev ∈ L /\ lies ev) (final_answer D (stream L) (terminal D L) r) {[ i := At 0 false ]}
    (fst (without_panics cs os)) (snd (without_panics cs os)).
Proof.
  intros Hw HD. apply xwrapped in Hw as (cs0 & os0 & h0 & new & Hgo0 & Hnw0 & H0 & Hf0 & Hu & Hg1 & Hwr & Hf1 & H1 & Hg2 & Hnw & H2 & Hf).
  assert (Hsi : stream_inv r (length (h_c h0)) D {[ i := At 0 false ]} h1) by by eapply stream_new.
  destruct (xstream_history r _ D cs _ h1 h2 os Hsi Hg2 Hnw Hf H2) as [t' [_ _ _ _ Hp Hle]]. split; [done|]. split; [done|].
  by eapply xtrace_inv.
Qed.

Lemma xrun_streamed r gp d er {A} (m : prog A) : streams E r gp d er -> holds_position P gp -> forall h h' o,
  xrun E P h m = (h', o) -> streamed r gp d er h -> streamed r gp d er h'.
Proof.
  intros Hst Hhp. induction m as [a|ex| |X a g IH]; intros h h' o; cbn; try (intros [= <- _]; done).
  destruct (hits P h a) as [[w e]|] eqn:Hh.
  { intros [= <- _] Hs. unfold hits in Hh. destruct (call_of a); [|done]. unfold streamed. cbn. rewrite (Hhp _ _ _ _ Hh). exact Hs. }
  destruct (act_step E h a) as [[h1 x]|] eqn:Ha; [|intros [= <- _]; done].
  intros Hr Hs. eapply IH; [exact Hr|]. by eapply act_streamed.
Qed.
Lemma xhistory_streamed r gp d er cs : streams E r gp d er -> holds_position P gp -> forall h h' os,
  xhistory E P fuel h cs = (h', os) -> streamed r gp d er h -> streamed r gp d er h'.
Proof.
  intros Hst Hhp. induction cs as [|c cs IH]; intros h h' os H Hs; cbn in H; [by injection H as <- <-|].
  destruct (xexec E P fuel h c) as [h1 o] eqn:Hex. unfold xexec in Hex. apply (xrun_streamed r gp d er _ Hst Hhp) in Hex; [|done].
  destruct o; [destruct (xhistory E P fuel h1 cs) as [h2 os'] eqn:Hh..|]; injection H as <- <-; eauto.
Qed.

Lemma xfaithful r gp d er w h1 i cs h2 os D :
  streams E r gp d er -> holds_position P gp -> gp w = 0%nat ->
  xwrapped_once E P fuel r w h1 i cs h2 os -> streaming E fuel r h1 i D ->
  exists e', end_error D d er e' /\
  stream_trace False (final_answer D (cut D d) (Some e') r) {[ i := At 0 false ]} (fst (without_panics cs os)) (snd (without_panics cs os)).
Proof.
  intros Hst Hhp H0 Hw HD. destruct (xone_stream r w h1 i cs h2 os D Hw HD) as (Hpol & Hle & Htr).
  eapply (faithful_end r gp d er h2); [|done..].
  destruct Hw as (_ & cs0 & os0 & h0 & new & Hgo & Hnw & Hw & Hh0 & Hh1 & Hh2 & Hf).
  eapply xhistory_streamed; [done|done|exact Hh2|]. unfold xexec in Hh1. eapply xrun_streamed; [done|done|exact Hh1|].
  eapply xhistory_streamed; [done|done|exact Hh0|].
  unfold streamed. cbn. intros _. rewrite H0, take_0. split; [done|]. split; [lia|]. split; [constructor|done].
Qed.
End X.

(** ** A Reader that panics in Close *)
Section C.
Context {W : Type} (E : env W) (P : hazard W) (fuel : nat).
Implicit Types h : heap W.

Lemma xshut h i b f :
  h_b h !! i = Some b -> seekable_kind b = true -> shut b = true -> (forall x, f <> WriteTo x) -> xexec E P fuel h (Call i f) = (h, ORet (closed_answer f)).
Proof.
  intros Hi Hk Hs Hf. unfold xexec, cmd_prog. rewrite Hi.
  destruct b as [|b|b|b|b|b]; try done; cbn in Hs; destruct f; cbn; rewrite ?Hi; cbn; rewrite ?Hs; try done; by destruct (Hf w).
Qed.
Lemma writesB_deferred {A} Q (m : prog A) l : writesB Q m -> writesB Q (deferred m (Unlock l)).
Proof. intros H. by destruct (writesB_locked Q l m H) as [_ Hl]; apply (Hl tt). Qed.
Lemma close_seekable h i b h' e :
  h_b h !! i = Some b -> seekable_kind b = true -> xexec E P fuel h (Call i Close) = (h', OPanic e) ->
  (forall f, (forall x, f <> WriteTo x) -> xexec E P fuel h' (Call i f) = (h', ORet (closed_answer f))) /\
  (forall j b', j <> i -> h_b h !! j = Some b' -> h_b h' !! j = Some b').
Proof.
  intros Hi Hk Hx. split.
  2: { intros j b' Hj Hb. apply xexec_frame in Hx as (_ & _ & H). apply H; [|done]. congruence. }
  assert (Hlt : (i < length (h_b h))%nat) by by eapply lookup_lt_Some.
  unfold xexec, cmd_prog in Hx. rewrite Hi in Hx. destruct b as [|b|b|b|b|b]; try done; cbn [method] in Hx.
  - unfold rerr in Hx. unfold seeker_Close in Hx. cbn in Hx. rewrite Hi in Hx. cbn in Hx. destruct (sb_closed b) eqn:Hcl; [done|].
    cbn in Hx. rewrite Hi in Hx. cbn in Hx.
    match type of Hx with xrun _ _ ?h1 ?m = _ => assert (Hw : writesB (fun _ => False) m) end.
    { destruct (sb_common b) as [c|]; [|done]. apply writesB_bind; [apply writesB_deferred; cbn [of_option bind]; unfold seeker_unref; wb|wb]. }
    apply (xrun_writesB E P _ _ _ _ _ Hw) in Hx as (_ & _ & H).
    intros f Hf. eapply xshut; [rewrite H; [cbn; by apply list_lookup_insert|by intros []|cbn; by rewrite insert_length]|done|done|done].
  - unfold rerr in Hx. unfold readerAt_Close in Hx. cbn in Hx. rewrite Hi in Hx. cbn in Hx. destruct (rb_closed b) eqn:Hcl; [done|].
    cbn in Hx. rewrite Hi in Hx. cbn in Hx.
    match type of Hx with xrun _ _ ?h1 ?m = _ => assert (Hw : writesB (fun _ => False) m) end.
    { destruct (rb_common b) as [c|]; [|done]. apply writesB_bind; [apply writesB_deferred; cbn [of_option bind]; unfold readerAt_unref; wb|wb]. }
    apply (xrun_writesB E P _ _ _ _ _ Hw) in Hx as (_ & _ & H).
    intros f Hf. eapply xshut; [rewrite H; [cbn; by apply list_lookup_insert|by intros []|cbn; by rewrite insert_length]|done|done|done].
Qed.
End C.
