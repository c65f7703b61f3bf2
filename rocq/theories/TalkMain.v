(** * What a request says to its client (proofs) *)
From stdpp Require Import gmap.
From Coq Require Import ZifyBool.
From Verif Require Import TalkSpec RespFacts Quiet WriterProofs WriterMain ServeMain AdaptorMain Metrics Safe RunFacts BooksMain.

Section Talk.
Context {V : Type} (U : uenv V) (fuel : nat).
Hypothesis Hrf : reads_only U.

Lemma calls_one k l : Forall (fun e => concerns e = Some k) l -> calls l = sent_by k l.
Proof.
  induction 1 as [|e l He _ IH]; [done|]. unfold sent_by, calls in *. destruct (decide (made_by e = Some k)) as [Hm|Hm].
  - rewrite filter_cons_True by done. rewrite <- IH. by destruct e.
  - rewrite filter_cons_False by done. rewrite <- IH. by destruct e.
Qed.
Lemma request_talk s k u inner isHEAD s' o : winv U (world s) -> v_objs (world s) !! 0%nat = Some WDiscard -> v_objs (world s) !! (k : wid) = Some (WRaw u) ->
  each off_writers inner -> texec U fuel (TServe inner (Some k) isHEAD) s = (s', o) -> o <> OSpin ->
  exists l, wlog s' = wlog s ++ l /\ conversation (u, isHEAD) l.
Proof.
  intros Hwi H0 Hk Ho HT Hns. assert (Ht : target s k = Some (None, u)) by (unfold target; by rewrite Hk).
  destruct (serve_http U fuel inner k None u isHEAD s s' o Hwi Ht HT Hns) as (s1 & k' & s2 & x & y & o1 & Hn & Hwi1 & Hy & Hyu & Hh & Hm1 & Hd & _).
  assert (Hs1 : k' = length (v_objs (world s)) /\ v_objs (world s1) !! 0%nat = Some WDiscard /\ wlog s1 = wlog s /\ ww_isHEAD y = isHEAD).
  { cbn in Hn. unfold ybind, NewWriter in Hn. fold (world s) in Hn. rewrite Hk in Hn. injection Hn as <- <-. split; [done|]. split; [|split; [done|]].
    - cbn. rewrite lookup_app_l; [exact H0|]. by eapply lookup_lt_Some.
    - cbn in Hy. rewrite list_lookup_middle in Hy by done. injection Hy as <-. done. }
  destruct Hs1 as (Hk' & H01 & Hl1 & HyH).
  destruct (handled_steps U fuel _ _ _ _ _ Hh) as [Hst _]. destruct (Hst Hwi1) as [Hwi2 (_ & _ & _ & Hgr)].
  destruct (Hgr k' y Hy) as (y2 & Hk2 & _ & Hyu2 & HyH2 & _). clear Hst Hgr.
  destruct (q_handled U fuel Hrf k' inner s1 s2 x Ho Hh) as (_ & l2 & Hl2 & Hc2); [split; [by exists y|done]|]. change (v_log (world s2)) with (wlog s2) in Hl2. change (v_log (world s1)) with (wlog s1) in Hl2.
  destruct (defer_run U s2 k' y2 (ended x) s' o1 Hk2 Hd) as ((z0 & Hz0 & Hzs & _) & Hl' & _).
  pose proof (w_defer U k' (ended x) s2) as Hwd. rewrite Hd in Hwd. destruct (Hwd Hwi2) as [Hwi' (_ & _ & _ & Hgr')]. cbn [fst] in *.
  destruct (Hgr' k' y2 Hk2) as (z & Hz & _ & Hzu & HzH & _). assert (z0 = z) as -> by (rewrite Hz0 in Hz; congruence).
  set (new := if ww_status y2 =? 0 then _ else _) in Hl'.
  assert (Hcn : Forall (fun e => concerns e = Some k') new) by (unfold new; destruct (_ =? _); by repeat constructor).
  assert (Hfresh : sent_by k' (wlog s) = []) by (apply (sent_fresh U); [done|lia]).
  exists (l2 ++ new). assert (Hlog : wlog s' = wlog s ++ l2 ++ new) by (rewrite Hl', Hl2, Hl1; by rewrite app_assoc). split; [exact Hlog|].
  assert (Hall : Forall (fun e => concerns e = Some k') (l2 ++ new)) by (by apply Forall_app).
  destruct Hwi' as [Hok _]. destruct (Hok k' z Hz) as [_ Hnx (pre & post & Hp & Hpre & Hpost) _ Hdead _]. change (v_log (world s')) with (wlog s') in *.
  rewrite Hlog, sent_by_app, Hfresh in Hp, Hnx, Hdead. cbn [app] in Hp, Hnx, Hdead. unfold conversation. cbn [fst snd]. rewrite (calls_one k' _ Hall).
  assert (Hto : Forall (fun e => called e = Some u) (sent_by k' (l2 ++ new))).
  { apply Forall_forall. intros e He. rewrite Forall_forall in Hnx. specialize (Hnx e He). apply elem_of_list_filter in He as [Hm _].
    assert (Hu : ww_next z = u) by congruence. destruct e; cbn in *; try done; congruence. }
  split; [exact Hto|]. destruct post as [|e post]; [exfalso; rewrite Hzs in Hpost; destruct (ww_status y2 =? 0) eqn:E0; lia|]. destruct e as [|by_ u' st r| | | | |]; try done. destruct Hpost as (Hs & Hr & Hf).
  assert (u' = u) as -> by (rewrite Hp in Hto; apply Forall_app in Hto as [_ Hto]; apply Forall_cons in Hto as [Hu _]; cbn in Hu; congruence).
  exists pre, by_, st, r, post. split; [exact Hp|]. split; [done|]. split; [done|]. split; [done|].
  intros Hor. assert (Hd1 : is_dead z = true).
  { unfold is_dead. rewrite HzH, HyH2, HyH, Hs. apply orb_true_iff. destruct Hor as [Hi| ->]; [by left|by right]. }
  specialize (Hdead Hd1). rewrite Hp in Hdead. apply Forall_app in Hdead as [_ Hdead]. by apply Forall_cons in Hdead as [_ ?].
Qed.
Lemma history_talk n cs : forall s s' os, Forall (server n) cs -> winv U (world s) -> v_objs (world s) !! 0%nat = Some WDiscard ->
  (forall k, (1 <= k <= n)%nat -> v_objs (world s) !! k = Some (WRaw (k - 1)%nat)) -> thistory U fuel s cs = (s', os) -> OSpin ∉ os ->
  exists ls, wlog s' = wlog s ++ concat ls /\ Forall2 conversation (requests_of cs) ls.
Proof.
  induction cs as [|c cs IH]; intros s s' os Hsv Hwi H0 Hraw H Hns; cbn [thistory] in H.
  { injection H as <- <-. exists []. rewrite !app_nil_r. split; [done|]. constructor. }
  apply Forall_cons in Hsv as [Hc Hcs]. destruct (texec U fuel c s) as [s1 o] eqn:Hex.
  pose proof (w_texec U fuel c s Hwi) as [Hwi1 (_ & _ & Hkeep & _)]. rewrite Hex in Hwi1, Hkeep. cbn [fst] in Hwi1, Hkeep.
  assert (Hns0 : o <> OSpin) by (intros ->; injection H as <- <-; apply Hns; by left).
  assert (Hrest : exists os1, thistory U fuel s1 cs = (s', os1) /\ OSpin ∉ os1).
  { destruct (thistory U fuel s1 cs) as [s2 os1]. exists os1. assert (Hi : (s2, o :: os1) = (s', os)) by (by destruct o). injection Hi as <- <-. split; [done|]. intros Hin. apply Hns. by right. }
  destruct Hrest as (os1 & Hh & Hns1).
  destruct (IH s1 s' os1 Hcs Hwi1) as (ls & Hl & Hb); [by apply (Hkeep (0%nat : wid))|intros k Hk; by apply (Hkeep k _ (Hraw k Hk))|done|done|].
  destruct c as [c|inner [k|] isHEAD]; cbn in Hc; [| |done].
  - exists ls. cbn [texec] in Hex. pose proof (st_rdo U fuel c Hc s) as [_ Hlog]. rewrite Hex in Hlog. cbn [fst] in Hlog. unfold wlog in *. rewrite Hl, Hlog. split; [done|]. exact Hb.
  - destruct Hc as [Hk Ho]. destruct (request_talk s k (k - 1)%nat inner isHEAD s1 o Hwi H0 (Hraw k Hk) Ho Hex Hns0) as (l1 & Hl1 & Hb1).
    exists (l1 :: ls). rewrite Hl, Hl1. cbn [concat]. rewrite app_assoc. split; [done|]. by constructor.
Qed.
Theorem program_talk : forall v n maps arrs cs s os,
  Forall (server n) cs -> thistory U fuel (tinitial v n maps arrs) cs = (s, os) -> OSpin ∉ os ->
  exists ls, wlog s = concat ls /\ Forall2 conversation (requests_of cs) ls.
Proof.
  intros v n maps arrs cs s os Hsv H Hns.
  destruct (history_talk n cs (tinitial v n maps arrs) s os Hsv (winv_initial U v n maps arrs) eq_refl) as (ls & -> & Hb); [|done..|by exists ls].
  intros k Hk. cbn. destruct k as [|k]; [lia|].
  change ((WRaw <$> seq 0 n) !! k = Some (WRaw (S k - 1)%nat)). rewrite list_lookup_fmap, lookup_seq_lt by lia. cbn. do 2 f_equal. lia.
Qed.
Theorem any_request_talk : forall s k u inner isHEAD s' o,
  treaches U fuel s -> target s k = Some (None, u) -> each off_writers inner -> texec U fuel (TServe inner (Some k) isHEAD) s = (s', o) -> o <> OSpin ->
  exists l, wlog s' = wlog s ++ l /\ conversation (u, isHEAD) l.
Proof.
  intros s k u inner isHEAD s' o Hre Ht Ho HT Hns. pose proof (treaches_winv U fuel s Hre) as Hwi.
  assert (H0 : v_objs (world s) !! (0%nat : wid) = Some WDiscard).
  { destruct Hre as (v & n & maps & arrs & cs & os & _ & H). pose proof (w_history U fuel (tinitial v n maps arrs) cs) as Hw. rewrite H in Hw.
    destruct (Hw (winv_initial U v n maps arrs)) as (_ & _ & _ & Hkeep & _). by apply (Hkeep (0%nat : wid) WDiscard). }
  assert (Hk : v_objs (world s) !! (k : wid) = Some (WRaw u)).
  { unfold target in Ht. destruct (v_objs (world s) !! k) as [[]|] eqn:E; try discriminate. by injection Ht as ->. }
  by apply (request_talk s k u inner isHEAD s' o).
Qed.
End Talk.
