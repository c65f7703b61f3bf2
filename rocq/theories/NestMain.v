(** * Programs over a Body of a Body *)
From stdpp Require Import gmap.
From Coq Require Import ZifyBool.
From Verif Require Import NestProofs NestSpec.
From Verif Require Import SeekSpec SourceSpec Source Mem Own Preserve.
From Verif Require ProofsOwn.

Section Layers.
Context {W : Type} (E : env W) (fuel : nat) (i : nat) (b : bobj) (g : rid -> rid).
Context (good after : heap W -> Prop) (d : bytes) (early : bool).
Hypothesis L : lower E fuel i g good after d early.
Notation N := (nest E fuel i b g).

(** The upper layer has closed the lower Body. *)
Definition shut0 (log : list event) : bool := existsb (fun ev => match ev with EvClose O _ => true | _ => false end) log.
Definition side (s : bool) : heap W -> Prop := if s then after else good.
Definition layered (h : heap (nworld W)) : Prop := n_bad (h_w h) = false /\ side (shut0 (h_log h)) (n_low (h_w h)).

Lemma shut0_app l k : shut0 (l ++ k) = shut0 l || shut0 k.
Proof. apply existsb_app. Qed.

Lemma after_call h f : after h -> f = Close \/ (exists p, f = Read p) \/ (exists p off, f = ReadAt p off) \/ (exists off wh, f = Seek off wh) ->
  exec E fuel h (Call i f) = (h, ORet (closed_answer f)).
Proof.
  intros Ha Hf. destruct (lo_gone _ _ _ _ _ _ _ _ L h Ha) as (b' & Hb & Hs & Hm1 & Hm2). rewrite (shut_exec E fuel h i b' f Hb Hs).
  replace (has_method b' f) with true; [done|]. destruct Hf as [->|[(p & ->)|[(p & off & ->)|(off & wh & ->)]]]; destruct b'; done.
Qed.
Lemma side_read s h p : side s h -> exists h' n q e, exec E fuel h (Call i (Read p)) = (h', ORet (RRead n q e)) /\ side s h'.
Proof.
  destruct s; intros H; [|by apply (lo_read _ _ _ _ _ _ _ _ L)]. rewrite (after_call h (Read p)) by eauto. by eexists _, _, _, _.
Qed.
Lemma side_readat s h p off : side s h -> exists h' n q e, exec E fuel h (Call i (ReadAt p off)) = (h', ORet (RRead n q e)) /\ side s h'.
Proof.
  destruct s; intros H.
  - rewrite (after_call h (ReadAt p off)) by eauto 7. by eexists _, _, _, _.
  - destruct (lo_readat _ _ _ _ _ _ _ _ L h p off H) as (h' & n & q & e & ? & ? & _). eauto 6.
Qed.
Lemma side_seek s h off wh : side s h -> exists h' n e, exec E fuel h (Call i (Seek (wrap64 off) wh)) = (h', ORet (RSeek n e)) /\ side s h'.
Proof.
  destruct s; intros H.
  - rewrite (after_call h (Seek (wrap64 off) wh)) by eauto 8. by eexists _, _, _.
  - destruct (lo_seek _ _ _ _ _ _ _ _ L h (wrap64 off) wh H (wrap64_range _)) as (h' & n & e & ? & ? & _). eauto 6.
Qed.
Lemma side_close s h : side s h -> exists h' e, exec E fuel h (Call i Close) = (h', ORet (RErr e)) /\ after h'.
Proof.
  destruct s; intros H; [|by apply (lo_close _ _ _ _ _ _ _ _ L)]. rewrite (after_call h Close) by eauto. by eexists _, _.
Qed.

Lemma act_layered {A} (a : act A) h h' x : act_step N h a = Some (h', x) -> layered h -> layered h'.
Proof.
  intros Ha Hl. pose proof Hl as [Hbad Hst].
  destruct a; cbn [act_step] in Ha; try (injection Ha as <- _; done).
  - destruct (h_b h !! i0); [|done]. by injection Ha as <- _.
  - destruct (h_b h !! i0); [|done]. by injection Ha as <- _.
  - destruct (h_c h !! c); [|done]. by injection Ha as <- _.
  - destruct (h_c h !! c); [|done]. by injection Ha as <- _.
  - cbn [nest ev_read] in Ha. destruct r as [|r].
    + unfold low in Ha. destruct (side_read _ _ (clip p) Hst) as (h1 & n & q & e & Hx & Hg1). rewrite Hx in Ha. injection Ha as <- _.
      split; cbn [emit h_w h_log n_low n_bad]; [done|]. by rewrite shut0_app, orb_false_r.
    + destruct (ev_read E (h_w (n_low (h_w h))) (g (S r)) p) as [w [[n q] e]] eqn:Hr. injection Ha as <- _.
      split; cbn [emit h_w h_log n_low n_bad out_world]; [done|]. rewrite shut0_app, orb_false_r.
      destruct (shut0 (h_log h)); [by apply (lo_after _ _ _ _ _ _ _ _ L)|].
      pose proof (lo_eread _ _ _ _ _ _ _ _ L _ (S r) p Hst) as H. rewrite Hr in H. exact H.
  - cbn [nest ev_readat] in Ha. destruct r as [|r].
    + unfold low in Ha. destruct (side_readat _ _ p off Hst) as (h1 & n & q & e & Hx & Hg1). rewrite Hx in Ha. injection Ha as <- _.
      split; cbn [emit h_w h_log n_low n_bad]; [done|]. by rewrite shut0_app, orb_false_r.
    + destruct (ev_readat E (h_w (n_low (h_w h))) (g (S r)) p off) as [w [[n q] e]] eqn:Hr. injection Ha as <- _.
      split; cbn [emit h_w h_log n_low n_bad out_world]; [done|]. rewrite shut0_app, orb_false_r.
      destruct (shut0 (h_log h)); [by apply (lo_after _ _ _ _ _ _ _ _ L)|].
      pose proof (lo_ereadat _ _ _ _ _ _ _ _ L _ (S r) p off Hst) as H. rewrite Hr in H. exact H.
  - cbn [nest ev_seek] in Ha. destruct r as [|r].
    + unfold low in Ha. destruct (side_seek _ _ off whence Hst) as (h1 & n & e & Hx & Hg1). rewrite Hx in Ha. injection Ha as <- _.
      split; cbn [emit h_w h_log n_low n_bad]; [done|]. by rewrite shut0_app, orb_false_r.
    + destruct (ev_seek E (h_w (n_low (h_w h))) (g (S r)) off whence) as [w [n e]] eqn:Hr. injection Ha as <- _.
      split; cbn [emit h_w h_log n_low n_bad out_world]; [done|]. rewrite shut0_app, orb_false_r.
      destruct (shut0 (h_log h)); [by apply (lo_after _ _ _ _ _ _ _ _ L)|].
      pose proof (lo_eseek _ _ _ _ _ _ _ _ L _ (S r) off whence Hst) as H. rewrite Hr in H. exact H.
  - cbn [nest ev_close] in Ha. destruct r as [|r].
    + unfold low in Ha. destruct (side_close _ _ Hst) as (h1 & e & Hx & Hg1). rewrite Hx in Ha. injection Ha as <- _.
      split; cbn [emit h_w h_log n_low n_bad]; [done|]. by rewrite shut0_app, orb_true_r.
    + destruct (ev_close E (h_w (n_low (h_w h))) (g (S r))) as [w e] eqn:Hr. injection Ha as <- _.
      split; cbn [emit h_w h_log n_low n_bad out_world]; [done|]. rewrite shut0_app, orb_false_r.
      destruct (shut0 (h_log h)); [by apply (lo_after _ _ _ _ _ _ _ _ L)|].
      pose proof (lo_eclose _ _ _ _ _ _ _ _ L _ (S r) Hst) as H. rewrite Hr in H. exact H.
  - cbn [nest ev_stat] in Ha. destruct r as [|r].
    + injection Ha as <- _. split; cbn [emit h_w h_log n_low n_bad]; [done|]. by rewrite shut0_app, orb_false_r.
    + destruct (ev_stat E (h_w (n_low (h_w h))) (g (S r))) as [w [n e]] eqn:Hr. injection Ha as <- _.
      split; cbn [emit h_w h_log n_low n_bad out_world]; [done|]. rewrite shut0_app, orb_false_r.
      destruct (shut0 (h_log h)); [by apply (lo_after _ _ _ _ _ _ _ _ L)|].
      pose proof (lo_estat _ _ _ _ _ _ _ _ L _ (S r) Hst) as H. rewrite Hr in H. exact H.
  - cbn [nest ev_write] in Ha. destruct (ev_write E (h_w (n_low (h_w h))) w p) as [w' e] eqn:Hr. injection Ha as <- _.
    split; cbn [emit h_w h_log n_low n_bad out_world]; [done|]. rewrite shut0_app, orb_false_r.
    destruct (shut0 (h_log h)); [by apply (lo_after _ _ _ _ _ _ _ _ L)|].
    pose proof (lo_ewrite _ _ _ _ _ _ _ _ L _ w p Hst) as H. rewrite Hr in H. exact H.
Qed.

Lemma run_layered {A} (m : prog A) : forall h h' o, run N h m = (h', o) -> layered h -> layered h'.
Proof.
  induction m as [a|ex| |X a k IH]; intros h h' o; cbn [run]; try (intros [= <- _]; done).
  destruct (act_step N h a) as [[h1 x]|] eqn:Ha; [|by intros [= <- _]].
  intros Hr Hl. eapply IH; [exact Hr|]. by eapply act_layered.
Qed.
Lemma history_layered upfuel cs : forall h h' os, history N upfuel h cs = (h', os) -> layered h -> layered h'.
Proof.
  induction cs as [|c cs IH]; intros h h' os H Hl; cbn [history] in H; [by injection H as <- _|].
  destruct (exec N upfuel h c) as [h1 o] eqn:Hex. pose proof (run_layered _ _ _ _ Hex Hl) as Hl1.
  destruct o; [destruct (history N upfuel h1 cs) as [h2 os'] eqn:Hh; injection H as <- _; by eapply IH..|]. by injection H as <- _.
Qed.
End Layers.

(** ** The two kinds of lower Body *)
Lemma open_not_shut b : open_seekable b = true -> shut b = false.
Proof. destruct b; cbn; try done; apply negb_true_iff. Qed.

Section Kinds.
Context {W : Type} (E : env W) (fuel : nat).

Lemma m_history i F cs : forall h h' os st ob,
  Forall go_cmd cs -> h_b h !! i = Some ob -> mem_rel F st ob -> history E fuel h cs = (h', os) ->
  exists st' ob', h_b h' !! i = Some ob' /\ mem_rel F st' ob'.
Proof.
  induction cs as [|c cs IH]; intros h h' os st ob Hgo Hb Hr H; cbn [history] in H; [injection H as <- _; eauto|].
  apply Forall_cons in Hgo as [Hg1 Hg2]. destruct (exec E fuel h c) as [h1 o] eqn:Hex.
  destruct (m_keeps E fuel i F h c h1 o st ob Hg1 Hb Hr Hex) as (st' & ob' & Hb' & Hr').
  destruct o; [destruct (history E fuel h1 cs) as [h2 os'] eqn:Hh; injection H as <- _; by eapply IH..|]. injection H as <- _. eauto.
Qed.

Lemma memory_good h i b d : memory_below E fuel h i b d -> mgood i (mem_family d) h /\ fam_data (mem_family d) = d.
Proof.
  intros (h0 & c & h1 & cs & os & Hc & Hgc & Hx & Hgo & Hh & Hb & Hop).
  assert (Hd : zlen d <= max_i64).
  { assert (max_slice <= max_i64) by (vm_compute; congruence).
    destruct Hc as [->|[(s & -> & <-)|[-> ->]]]; cbn in Hgc; [lia| |unfold zlen, max_i64; cbn; lia].
    unfold zlen. assert (@length byte (String.list_ascii_of_string s) = String.length s) as -> by (clear; induction s; cbn; congruence). lia. }
  destruct (mem_new E fuel h0 d c Hd Hc) as (h1' & Hx' & Hinv). rewrite Hx in Hx'. injection Hx' as <- ->.
  destruct (Hinv (length (h_b h0)) (At 0 false)) as (o & Ho & Hr); [by rewrite lookup_singleton|].
  destruct (m_history _ _ _ _ _ _ _ _ Hgo Ho Hr Hh) as (st & o' & Ho' & Hr'). rewrite Hb in Ho'. injection Ho' as <-.
  split; [|by destruct d].
  destruct st as [|pos e]; [|by exists pos, e, b]. exfalso. apply open_not_shut in Hop.
  unfold mem_rel in Hr'. destruct (fam_flavour (mem_family d)); [|..|done].
  - by destruct Hr' as (_ & ? & ->).
  - by destruct Hr' as (_ & ? & ? & ? & ->).
Qed.

Lemma src_history k r live d early D c cs : 
  match k with KAt => serves_at E r live d early | KSeek => serves_seek E r live d early end ->
  (D <= length d)%nat -> forall t h h' os i,
  go_env E -> src_inv k r live D c t h -> Forall go_cmd cs -> Forall (fun c => ~ wraps r c) cs -> feasible h' ->
  history E fuel h cs = (h', os) -> is_Some (t !! i) -> exists t', src_inv k r live D c t' h' /\ is_Some (t' !! i).
Proof.
  intros Hs HD. induction cs as [|cmd cs IH]; intros t h h' os i Hge Hsi Hgo Hnw Hf H Hi; cbn in H; [injection H as <- <-; eauto|].
  apply Forall_cons in Hgo as [Hg1 Hg2]. apply Forall_cons in Hnw as [Hn1 Hn2].
  destruct (exec E fuel h cmd) as [h1 o] eqn:Hex.
  assert (Hf1 : feasible h1).
  { destruct o; [destruct (history E fuel h1 cs) as [h2 os'] eqn:Hh..|]; injection H as <- <-; [by eapply history_feasible..|done]. }
  pose proof (src_step E fuel k r live d early D Hs HD c t h cmd h1 o Hge Hsi Hg1 Hn1 Hf1 Hex) as Hst.
  assert (exists t', src_inv k r live D c t' h1 /\ is_Some (t' !! i)) as (t' & Hsi' & Hi').
  { destruct cmd as [j f| | | | | | |]; try (by exists t). destruct (t !! j) as [stj|] eqn:Hj; [|by exists t].
    destruct Hst as (x & t' & _ & (st & st' & Hst1 & _ & Hstep) & Hsi'). exists t'. split; [done|].
    destruct (match st, f, x with At _ _, Copy, RBody j' _ => Some j' | _, _, _ => None end) as [j'|] eqn:Hcp.
    - destruct st; [done|]. destruct f; try done. destruct x; try done. destruct Hstep as [_ ->].
      apply lookup_insert_is_Some'. by right.
    - assert (t' = <[j := st']> t) as -> by (destruct st, f, x; done). apply lookup_insert_is_Some'. by right. }
  destruct o; [destruct (history E fuel h1 cs) as [h2 os'] eqn:Hh; injection H as <- <-; by eapply IH..|]. injection H as <- <-. eauto.
Qed.

Lemma reader_good h i b r d early D cs os :
  reader_below E fuel h i b r d early D cs os ->
  exists k live n c cnt, D = Z.of_nat n /\ (n <= length d)%nat /\ Z.of_nat n <= max_i64 /\
    match k with KAt => serves_at E r live d early | KSeek => serves_seek E r live d early end /\
    kgood i k r live n c cnt h /\ (forall j, refers (h_b h) c j <-> tracks {[ i := true ]} cs os !! j = Some true) /\
    cnt = zlen (refs (h_b h) c) /\ go_env E /\ Forall not_close (calls_on r (h_log h)).
Proof.
  intros (live & w & h1 & Hs & Hl & Hw & Hann & HD & Hb & Hop).
  assert (exists k, match k with KAt => serves_at E r live d early | KSeek => serves_seek E r live d early end /\
    match k with KAt => cp_readerat (ev_caps E r) = true | KSeek => cp_readerat (ev_caps E r) = false /\ cp_seeker (ev_caps E r) = true end) as (k & Hsk & Hk).
  { destruct Hs as [[? ?]|(? & ? & ?)]; [by exists KAt|by exists KSeek]. }
  clear Hs. unfold zlen in HD. assert (exists n, D = Z.of_nat n) as [n ->] by (exists (Z.to_nat D); lia).
  assert (Huc : until_closed E r live) by (destruct k; apply Hsk).
  pose proof Hw as (Hge & cs0 & os0 & h0 & new & Hgo & Hnw & Hwr & H0 & H1 & H2 & Hf).
  destruct (own_program E fuel r w cs0 os0 h0 new h1 i cs h os Hge Hgo Hnw Hwr H0 H1 H2 Hf) as (c & Hown & Hcl).
  apply Forall_app in Hgo as [Hgo0 Hgo]. apply Forall_cons in Hgo as [Hg1 Hg2]. apply Forall_app in Hnw as [Hnw0 Hnw].
  assert (Hf1 : feasible h1) by (by eapply history_feasible).
  assert (Hf0 : feasible h0) by (by eapply exec_feasible).
  assert (Hu : unowned r h0) by (eapply (unowned_history E fuel r cs0 (initial w)); try done; apply unowned_initial).
  assert (Hl0 : live (h_w h0)).
  { destruct (history_live E fuel r live cs0 Huc _ _ _ H0 Hl) as (evs & Hlog & Hli). apply Hli. cbn in Hlog. rewrite <- Hlog, (un_log _ _ Hu). constructor. }
  assert (Hsi : src_inv k r live n (length (h_c h0)) {[ i := At 0 false ]} h1) by (eapply (src_new E fuel k r live d early n); try done; lia).
  destruct (src_history k r live d early n _ cs Hsk ltac:(lia) _ _ _ _ i Hge Hsi Hg2 Hnw Hf H2) as (t' & Hsi' & [st Hst]); [rewrite lookup_singleton; eauto|].
  destruct st as [|pos e].
  { rewrite (sr_shut _ _ _ _ _ _ _ Hsi' i Hst) in Hb. injection Hb as <-. by destruct k. }
  assert (Hna : ~ all_closed (open_table t')) by (intros Ha; apply (Ha i); unfold open_table; by rewrite lookup_fmap, Hst).
  set (c1 := length (h_c h0)) in *.
  assert (c1 = c) as ->.
  { destruct (decide (c1 = c)); [done|]. exfalso. apply (ow_uniq _ _ _ _ Hown c1); [done|]. by apply (ow_rd _ _ _ _ (sr_own _ _ _ _ _ _ _ Hsi')). }
  destruct (sr_cm _ _ _ _ _ _ _ Hsi' Hna) as (cnt & Hc).
  destruct (sr_at _ _ _ _ _ _ _ Hsi' i pos e Hst) as [Hbi Hpos].
  exists k, live, n, c, cnt. split_and!; try done.
  - lia.
  - apply Hsi'.
  - split; [by apply (sr_live _ _ _ _ _ _ _ Hsi')|]. exists e, pos. split; [|done]. constructor; try done; [lia|apply Hsi'].
  - intros j. symmetry. apply Hown.
  - pose proof (wf_c _ (ow_wf _ _ _ _ Hown) _ _ Hc) as Hwc. clear -Hwc. destruct k; cbn in Hwc; apply Hwc.
  - apply Hcl. intros Ha. apply (Ha i). apply (ow_open _ _ _ _ Hown). exists (kbody k c (if e then Some EOF else None) (Z.of_nat pos)). split; [done|]. by destruct k.
Qed.
End Kinds.

(** ** Logs of the lower layer *)
Section Logs.
Context {W : Type} (E : env W) (fuel : nat) (i : nat) (g : rid -> rid).
Context (k : skind) (r : rid) (live : W -> Prop) (d : bytes) (early : bool) (D : nat) (c : nat).
Hypothesis Hserve : match k with KAt => serves_at E r live d early | KSeek => serves_seek E r live d early end.
Hypothesis HD : (D <= length d)%nat.
Hypothesis Hmax : Z.of_nat D <= max_i64.
Hypothesis Hg : forall n, g n <> r.
Implicit Types h : heap W.

Definition calm h h' : Prop := exists evs, h_log h' = h_log h ++ evs /\ Forall not_close evs.
Lemma calm_refl h : calm h h.
Proof. exists []. by rewrite app_nil_r. Qed.
Lemma calm_calls h h' : calm h h' -> Forall not_close (calls_on r (h_log h)) -> Forall not_close (calls_on r (h_log h')).
Proof.
  intros (evs & -> & Hf) H. rewrite calls_on_app. apply Forall_app. split; [done|]. unfold calls_on. rewrite Forall_forall in *. intros ev Hev. apply elem_of_list_filter in Hev as [_ Hev]. auto.
Qed.

Lemma krd_calm h p off h1 x : krd E k r h p off = (h1, x) -> calm h h1.
Proof.
  unfold krd. destruct k.
  - unfold ra_rd. destruct (ev_readat E (h_w h) r p off) as [w [[n q] e]]. destruct (_ && _); intros [= <- _]; eexists; (split; [reflexivity|]); by repeat constructor.
  - unfold sk_rd. destruct (ev_seek E (h_w h) r off SeekStart) as [w [n [e|]]]; [intros [= <- _]; eexists; (split; [reflexivity|]); by repeat constructor|].
    destruct (ev_read E w r p) as [w2 [[n2 q] e]]. destruct (_ && _); intros [= <- _]; unfold calm; cbn [emit h_log]; rewrite <- app_assoc; eexists; (split; [reflexivity|]); by repeat constructor.
Qed.
Lemma kfetch_calm h p len off h1 x : kfetch E k r h p len off = (h1, x) -> calm h h1.
Proof.
  rewrite kfetch_eq. cbv zeta. gif; [|intros [= <- _]; apply calm_refl].
  destruct (krd E k r h _ off) as [h2 [[[n q] e]| |]] eqn:Hk; intros [= <- _]; by eapply krd_calm.
Qed.

Definition kgood1 h : Prop := kgood i k r live D c 1 h /\ Forall not_close (calls_on r (h_log h)).
Definition kafter h : Prop := gone i h /\
  if is_closer (ev_caps E r) then exists pre err, calls_on r (h_log h) = pre ++ [EvClose r err] /\ Forall not_close pre
  else Forall not_close (calls_on r (h_log h)).

Lemma k_lower1 : lower E fuel i g kgood1 kafter (take D d) early.
Proof.
  pose proof (k_lower E fuel i g k r live d early D c Hserve HD Hmax Hg 1) as L. constructor.
  - intros h p [H1 H2]. destruct (lo_read _ _ _ _ _ _ _ _ L h p H1) as (h' & n & q & e & Hx & Hg').
    exists h', n, q, e. split; [done|]. split; [done|]. eapply calm_calls; [|exact H2].
    destruct H1 as (_ & e0 & pos & Ho & _). rewrite (k_Read E fuel _ _ _ _ _ _ _ _ _ _ Ho) in Hx. destruct e0; [injection Hx as <-; apply calm_refl|].
    destruct (kfetch E k r h p (Z.of_nat D) (Z.of_nat pos)) as [h1 [[[n1 q1] e1]| |]] eqn:Hk; [|done|done]. cbv zeta in Hx.
    apply kfetch_calm in Hk as (evs & Hlog & Hc). exists evs. split; [|done]. rewrite <- Hlog.
    destruct e1; [destruct (_ <? _)|]; by injection Hx as <-.
  - intros h p off [H1 H2]. destruct (lo_readat _ _ _ _ _ _ _ _ L h p off H1) as (h' & n & q & e & Hx & Hg' & Hr).
    exists h', n, q, e. split; [done|]. split; [|done]. split; [done|]. eapply calm_calls; [|exact H2].
    destruct H1 as (_ & e0 & pos & Ho & _). rewrite (k_ReadAt E fuel _ _ _ _ _ _ _ _ _ _ _ Ho) in Hx. destruct (off <? 0); [injection Hx as <-; apply calm_refl|].
    destruct (kfetch E k r h p (Z.of_nat D) (Z.min off (Z.of_nat D))) as [h1 [[[n1 q1] e1]| |]] eqn:Hk; [|done|done].
    injection Hx as <- _ _ _. by eapply kfetch_calm.
  - intros h off wh [H1 H2] Hin. destruct (lo_seek _ _ _ _ _ _ _ _ L h off wh H1 Hin) as (h' & n & e & Hx & Hg' & Hr).
    exists h', n, e. split; [done|]. split; [|done]. split; [done|]. eapply calm_calls; [|exact H2].
    destruct H1 as (_ & e0 & pos & Ho & _). rewrite (k_Seek E fuel _ _ _ _ _ _ _ _ _ _ _ Ho Hin) in Hx.
    destruct (seek_to _ _ off wh) as [n1 e1]. injection Hx as <- _ _. destruct e1; exists []; by rewrite app_nil_r.
  - intros h [H1 H2]. destruct (lo_close _ _ _ _ _ _ _ _ L h H1) as (h' & e & Hx & Hg'). exists h', e. split; [done|]. split; [done|].
    destruct H1 as (_ & e0 & pos & Ho & _). revert Hx.
    assert (Hfin : forall (hh : heap W) w (err0 : option error), h_log hh = h_log h -> exists pre err, calls_on r (h_log (emit hh w (EvClose r err0))) = pre ++ [EvClose r err] /\ Forall not_close pre).
    { intros hh w err0 Hlog. cbn [emit h_log]. rewrite Hlog, calls_on_app. exists (calls_on r (h_log h)), err0. split; [|done]. f_equal.
      unfold calls_on. rewrite filter_cons, decide_True by done. done. }
    unfold exec; cbn [cmd_prog]; rewrite (ko_b _ _ _ _ _ _ _ _ _ Ho);
      destruct k; cbn [kbody method]; [pose proof (kopen_ra _ _ _ _ _ _ _ _ Ho) as Ho'|pose proof (kopen_sk _ _ _ _ _ _ _ _ Ho) as Ho'];
      rewrite run_rerr; [rewrite (run_ra_Close _ _ _ _ _ _ _ Ho')|rewrite (run_sk_Close _ _ _ _ _ _ _ Ho')];
      cbv zeta; cbn [rc_refcnt sc_refcnt]; rewrite (wrap32_id (1 - 1)) by lia; cbn [Z.sub Z.gtb Z.compare Z.add Z.opp Z.pos_sub];
      (destruct (is_closer (ev_caps E r)); [destruct (ev_close E (h_w h) r) as [w err]|]); intros [= <- _]; try done; by apply Hfin.
  - intros h [H1 _]. done.
  - intros h w [H1 H2]. done.
  - apply L.
  - intros h n p [H1 H2]. split; [by apply (lo_eread _ _ _ _ _ _ _ _ L)|done].
  - intros h n p off [H1 H2]. split; [by apply (lo_ereadat _ _ _ _ _ _ _ _ L)|done].
  - intros h n off wh [H1 H2]. split; [by apply (lo_eseek _ _ _ _ _ _ _ _ L)|done].
  - intros h n [H1 H2]. split; [by apply (lo_eclose _ _ _ _ _ _ _ _ L)|done].
  - intros h n [H1 H2]. split; [by apply (lo_estat _ _ _ _ _ _ _ _ L)|done].
  - intros h x p [H1 H2]. split; [by apply (lo_ewrite _ _ _ _ _ _ _ _ L)|done].
Qed.
End Logs.

(** ** The theorems *)
Section Main.
Context {W : Type} (E : env W) (fuel : nat) (h : heap W) (i : nat) (b : bobj) (g : rid -> rid).
Notation N := (nest E fuel i b g).

Lemma below_lower d early : seekable_below E fuel h i b g d early ->
  exists good after, lower E fuel i g good after d early /\ good h.
Proof.
  intros [[Hm ->]|(r & d0 & D & cs & os & Hr & Hg & ->)].
  - destruct (memory_good E fuel h i b d Hm) as [Hg Hd]. eexists _, _. split; [|exact Hg]. rewrite <- Hd at 2. by eapply m_lower.
  - destruct (reader_good E fuel h i b r d0 early D cs os Hr) as (k & live & n & c & cnt & -> & Hn & Hmax & Hs & Hk & _).
    rewrite Nat2Z.id. eexists _, _. split; [|exact Hk]. by apply k_lower.
Qed.
Lemma below_object d early : seekable_below E fuel h i b g d early -> open_seekable b = true.
Proof. intros [[(? & ? & ? & ? & ? & Hm) _]|(r & d0 & D & cs & os & (? & ? & ? & Hr) & _)]; tauto. Qed.
Lemma below_caps d early : seekable_below E fuel h i b g d early -> ev_caps N 0%nat = {| cp_file := false; cp_seeker := true; cp_readerat := true; cp_closer := true |}.
Proof. intros H%below_object. cbn. by destruct b. Qed.

Lemma body_is_source d early : seekable_below E fuel h i b g d early -> source_below E fuel h i b g d early.
Proof.
  intros H. split; [by rewrite (below_caps _ _ H)|]. destruct (below_lower _ _ H) as (good & after & L & Hg).
  exists (nlive good). split; [by eapply nest_serves|]. split; [done|]. by intros x [? _].
Qed.

Lemma start_layered (good after : heap W -> Prop) : good h -> layered good after (initial (upper h)).
Proof. done. Qed.

Lemma nested_cursors d early : seekable_below E fuel h i b g d early ->
  forall upfuel h1 j cs h2 os D,
  wrapped_once N upfuel 0 (upper h) h1 j cs h2 os -> announces N upfuel h1 j D -> 0 <= D <= zlen d ->
  fam_trace (first_bytes 0 early D d) {[ j := At 0 false ]} cs os /\ n_bad (h_w h2) = false.
Proof.
  intros H upfuel h1 j cs h2 os D Hw Ha HD. destruct (below_lower _ _ H) as (good & after & L & Hg). split.
  - assert (Hs : serves_at N 0%nat (nlive good) d early) by (by eapply nest_serves).
    assert (Hc : cp_readerat (ev_caps N 0%nat) = true) by (by rewrite (below_caps _ _ H)).
    exact (cursors_at N upfuel 0%nat (nlive good) d early Hs Hc (upper h) h1 j cs h2 os D (conj eq_refl Hg) Hw Ha HD).
  - destruct Hw as (_ & cs0 & os0 & h0 & new & _ & _ & _ & H0 & H1 & H2 & _).
    eapply (history_layered E fuel i b g good after d early L _ _ _ _ _ H2).
    eapply (run_layered E fuel i b g good after d early L _ _ _ _ H1).
    by eapply (history_layered E fuel i b g good after d early L _ _ _ _ _ H0).
Qed.

Lemma shut0_none log : calls_on 0 log = [] -> shut0 log = false.
Proof.
  induction log as [|ev log IH]; [done|]. unfold calls_on in *. rewrite filter_cons. case_decide as Hd; [done|]. intros Hf. change (ev :: log) with ([ev] ++ log). rewrite shut0_app, IH by done.
  destruct ev as [| | |[|r]| |]; try done.
Qed.
Lemma shut0_calm log : Forall not_close (calls_on 0 log) -> shut0 log = false.
Proof.
  induction log as [|ev log IH]; [done|]. unfold calls_on in *. rewrite filter_cons. case_decide as Hd.
  - intros [H1 H2]%Forall_cons. change (ev :: log) with ([ev] ++ log). rewrite shut0_app, IH by done. destruct ev as [| | |[|r]| |]; try done.
  - intros Hf. change (ev :: log) with ([ev] ++ log). rewrite shut0_app, IH by done. destruct ev as [| | |[|r]| |]; try done.
Qed.
Lemma shut0_closed log pre err : calls_on 0 log = pre ++ [EvClose 0 err] -> shut0 log = true.
Proof.
  intros H. assert (EvClose 0 err ∈ calls_on 0 log) as Hin by (rewrite H; apply elem_of_app; right; constructor).
  apply elem_of_list_filter in Hin as [_ Hin]. unfold shut0. apply existsb_exists. exists (EvClose 0 err). split; [|done]. by apply elem_of_list_In.
Qed.

(** The length found by the constructor is that of the lower Body. *)
Lemma nested_length d early : seekable_below E fuel h i b g d early -> go_env E ->
  forall upfuel cs0 h0 os0 n,
  Forall go_cmd cs0 -> Forall (fun c => ~ wraps 0 c) cs0 -> history N upfuel (initial (upper h)) cs0 = (h0, os0) -> feasible h0 -> n < 0 ->
  exists h1 j, exec N upfuel h0 (NewReaderLen 0 n) = (h1, ORet (RBody j None)) /\ announces N upfuel h1 j (zlen d).
Proof.
  intros H Hge upfuel cs0 h0 os0 n Hgo Hnw H0 Hf Hn. destruct (below_lower _ _ H) as (good & after & L & Hg).
  pose proof (history_layered E fuel i b g good after d early L _ _ _ _ _ H0 (start_layered good after Hg)) as [Hbad Hside].
  assert (Hu : unowned 0 h0) by (eapply (unowned_history N upfuel 0 cs0 (initial (upper h))); try done; [by apply nest_go|apply unowned_initial]).
  rewrite (shut0_none _ (un_log _ _ Hu)) in Hside. cbn [side] in Hside.
  unfold exec at 1. cbn [cmd_prog]. unfold rfrom. rewrite run_bind, run_From. unfold find_len.
  replace (n >=? 0) with false by lia. rewrite (below_caps _ _ H). cbn [cp_file cp_seeker].
  assert (Hz : in_i64 0) by (unfold in_i64, min_i64, max_i64; lia).
  destruct (lo_seek _ _ _ _ _ _ _ _ L (n_low (h_w h0)) 0 SeekEnd Hside Hz) as (hA & nA & eA & HA & HgA & HeA & _).
  destruct (HeA eq_refl eq_refl) as [-> ->]. clear HeA.
  destruct (lo_seek _ _ _ _ _ _ _ _ L hA 0 SeekStart HgA Hz) as (hB & nB & eB & HB & HgB & _ & HeB). rewrite (HeB eq_refl eq_refl) in HB. clear HeB eB.
  pose proof (lo_len _ _ _ _ _ _ _ _ L) as Hmax. pose proof (zlen_nonneg d) as Hd0.
  cbn [nest ev_seek]. unfold low. rewrite wrap64_id by (unfold in_i64 in Hz; lia). rewrite HA. rewrite wrap64_id by (unfold min_i64, max_i64 in *; lia).
  replace (zlen d >=? 0) with true by lia. cbn [n_low]. rewrite HB. cbv beta iota zeta. cbn [run bind].
  eexists _, _. split; [reflexivity|]. unfold announces.
  set (hh := set_b _ _). set (j := length (h_b h0)).
  enough (Ho : kopen KAt hh j (length (h_c h0)) None 0 0%nat (zlen d) 1) by (rewrite (k_BytesRemaining N upfuel _ _ _ _ _ _ _ _ _ Ho); by rewrite Z.sub_0_r).
  unfold hh, j.
  unfold new_pair. rewrite (below_caps _ _ H). replace (zlen d >=? 0) with true by lia. cbn [cp_readerat andb fst snd].
  constructor; cbn [set_b set_c h_b h_c heap_wl]; [rewrite lookup_app_r, Nat.sub_diag by lia; done..|lia|lia].
Qed.

(** Closing the last upper handle closes the Reader at the bottom. *)
Lemma nested_close r d0 early D cs0 os0 :
  reader_below E fuel h i b r d0 early D cs0 os0 -> (forall n, g n <> r) ->
  (forall j, tracks {[ i := true ]} cs0 os0 !! j = Some true -> j = i) ->
  forall upfuel h1 j cs h2 os, wrapped_once N upfuel 0 (upper h) h1 j cs h2 os ->
  let low := n_low (h_w h2) in
  (~ all_closed (tracks {[ j := true ]} cs os) -> Forall not_close (calls_on r (h_log low))) /\
  (all_closed (tracks {[ j := true ]} cs os) ->
     if is_closer (ev_caps E r)
     then exists pre err, calls_on r (h_log low) = pre ++ [EvClose r err] /\ Forall not_close pre
     else Forall not_close (calls_on r (h_log low))).
Proof.
  intros Hr Hg Hsole upfuel h1 j cs h2 os Hw.
  assert (Hbel : seekable_below E fuel h i b g (take (Z.to_nat D) d0) early) by (right; by eexists _, _, _, _, _).
  destruct (reader_good E fuel h i b r d0 early D cs0 os0 Hr) as (k & live & n & c & cnt & -> & Hn & Hmax & Hs & Hk & Href & Hcnt & Hge & Hnc).
  assert (cnt = 1) as ->.
  { subst cnt. assert (Hone : forall x, x ∈ refs (h_b h) c -> x = i) by (intros x Hx; apply Hsole, Href, elem_refs, Hx).
    assert (Hi : i ∈ refs (h_b h) c). { apply elem_refs. destruct Hk as (_ & e & pos & Ho & _). eexists. split; [apply Ho|]. by destruct k. }
    pose proof (NoDup_refs (h_b h) c) as Hnd. unfold zlen. destruct (refs (h_b h) c) as [|x [|y l]]; [by apply elem_of_nil in Hi|done|].
    assert (x = y) by (rewrite (Hone x), (Hone y); [done|right; left|left]). subst y. apply NoDup_cons in Hnd as [Hx _]. exfalso. apply Hx. left. }
  pose proof (k_lower1 E fuel i g k r live d0 early n c Hs Hn Hmax Hg) as L.
  pose proof Hw as (HgeN & c0 & o0 & h0 & new & Hgo & Hnw & Hwr & H0 & H1 & H2 & Hf).
  pose proof (ProofsOwn.closed_exactly_once N upfuel 0%nat (upper h) c0 o0 h0 new h1 j cs h2 os HgeN Hgo Hnw Hwr H0 H1 H2 Hf) as [Hopen Hcl].
  rewrite (below_caps _ _ Hbel) in Hcl. cbn [is_closer cp_file cp_closer orb] in Hcl.
  assert (Hlay : layered (kgood1 i k r live n c) (kafter E i r) h2).
  { eapply (history_layered E fuel i b g _ _ _ _ L _ _ _ _ _ H2).
    eapply (run_layered E fuel i b g _ _ _ _ L _ _ _ _ H1).
    by eapply (history_layered E fuel i b g _ _ _ _ L _ _ _ _ _ H0). }
  destruct Hlay as [_ Hside]. cbv zeta. split.
  - intros Hna. rewrite (shut0_calm _ (Hopen Hna)) in Hside. apply Hside.
  - intros Ha. destruct (Hcl Ha) as (pre & err & He & _). rewrite (shut0_closed _ _ _ He) in Hside. apply Hside.
Qed.
(** The upper Body can be a lower one in turn. *)
Lemma next_layer d early : seekable_below E fuel h i b g d early ->
  forall upfuel h1 j cs h2 os D b2 g2,
  wrapped_once N upfuel 0 (upper h) h1 j cs h2 os -> announces N upfuel h1 j D -> 0 <= D <= zlen d ->
  h_b h2 !! j = Some b2 -> open_seekable b2 = true -> (forall n, g2 n <> 0%nat) ->
  seekable_below N upfuel h2 j b2 g2 (take (Z.to_nat D) d) early.
Proof.
  intros H upfuel h1 j cs h2 os D b2 g2 Hw Ha HD Hb Hop Hg. right. exists 0%nat, d, D, cs, os. split; [|done].
  destruct (body_is_source _ _ H) as (Hc & live & Hs & Hl & _). exists live, (upper h), h1. split_and!; try done; [by left|lia|lia].
Qed.
End Main.
