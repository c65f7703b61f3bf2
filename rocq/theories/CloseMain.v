(** * Who closes the Reader of a Response (proofs) *)
From stdpp Require Import gmap.
From Coq Require Import ZifyBool.
From Verif Require Import RespFacts CloseSpec Post Wf WfUpd Seeker ReaderAt Buffered Preserve Effect ServeProofs WriterProofs ServeMain Own HeapRun Deliver DeliverMain WriterMain Twins Template.
From Verif Require AdaptorMain Reply.

Section Close.
Context {V : Type} (U : uenv V) (fuel : nat) (rd : rid).
Implicit Types s : state V.
Notation E := (wenv U).
Hypothesis Hgu : go_uenv U.

(** The handles on [rd] that are open at [h] are in [L] or not below [n], and it has been
    closed once if there are none. *)
Definition kept_by (L : nat -> Prop) (n : nat) (h : heap (wst V)) : Prop :=
  (n <= length (h_b h))%nat /\ exists c t, own rd c t h /\ closed_once E rd t (h_log h) /\ forall j, t !! j = Some true -> L j \/ (n <= j)%nat.
Lemma kept_world L n h w : kept_by L n h -> kept_by L n (heap_w h w).
Proof.
  intros (Hn & c & t & [[W1 W2 W3 W4] O2 O3 O4 O5 O6 O7] & Hc & Ht). split; [done|]. exists c, t. split; [|done]. constructor; try done; try by constructor.
Qed.
Lemma kept_step L n h cmd h' o : kept_by L n h -> go_cmd cmd -> ~ wraps rd cmd -> exec E fuel h cmd = (h', o) -> feasible h' -> kept_by L n h'.
Proof.
  intros (Hn & c & t & Ho & Hc & Ht) Hg Hw Hex Hf.
  pose proof (exec_frame E _ _ _ _ _ Hex) as [Hl _]. split; [lia|].
  destruct (own_history E fuel rd c [cmd] t h h' [o] (go_wenv U Hgu) Ho Hc) as [Ho' Hc'].
  { by apply Forall_singleton. } { by apply Forall_singleton. } { done. } { cbn. rewrite Hex. by destruct o. }
  exists c, (tracks t [cmd] [o]). split; [done|]. split; [done|]. cbn [tracks]. intros j. unfold track. destruct cmd as [k f| | | | | | |]; try (by apply Ht).
  destruct f; try (by apply Ht); destruct o as [y| |]; try (by apply Ht); destruct y as [| | | | |i err| | |]; try (by apply Ht).
  - destruct (t !! k) as [[]|] eqn:Hk; [|by apply Ht..]. intros Hj. destruct (decide (j = k)) as [->|Hne]; [by rewrite lookup_insert in Hj|]. rewrite lookup_insert_ne in Hj by done. by apply Ht.
  - destruct err; [by apply Ht|]. destruct (t !! k) as [[]|] eqn:Hk; [|by apply Ht..].
    intros Hj. destruct (decide (j = i)) as [->|Hne]; [|rewrite lookup_insert_ne in Hj by done; by apply Ht]. right.
    apply (ow_open _ _ _ _ Ho) in Hk as (b & Hb & Hbc). pose proof (exec_feasible E _ _ _ _ _ Hex Hf) as Hf0.
    destruct (call_effect E fuel h k b Copy h' _ (ow_wf _ _ _ _ Ho) Hb Hg Hf0 Hex) as (evs & _ & Heff). inversion Heff; subst; try done.
    match goal with H : _ \/ _ -> body_common b = None |- _ => rewrite H in Hbc by (by left) end. done.
Qed.
(** Unwrap tells. *)
Lemma open_holds c t s j : own rd c t (s_h s) -> t !! j = Some true -> holds U fuel s j rd.
Proof.
  intros Ho Ht. pose proof (ow_wf _ _ _ _ Ho) as Hwf. assert (Hna : ~ all_closed t) by (intros Ha; by apply (Ha j)).
  assert (Hex : exec E fuel (s_h s) (Call j Unwrap) = (s_h s, ORet (RReader (Some rd)))).
  { pose proof (ow_rd _ _ _ _ Ho Hna) as Hrd. apply (ow_open _ _ _ _ Ho) in Ht as (b & Hb & Hbc). set (h2 := s_h s) in *.
    assert (Hns : shut b = false).
    { pose proof (wf_b _ Hwf _ _ Hb) as Hwb. destruct b as [| | |b|b|b]; cbn in *; try done;
        match goal with |- ?x = false => destruct x; [congruence|done] end. }
    unfold exec, cmd_prog. rewrite Hb. destruct b as [| | |b|b|b]; try done; cbn in Hbc, Hns; cbn [method]; rewrite run_rreader.
    + destruct (sk_open_wf h2 j b Hwf Hb Hns) as (c' & cm & r' & Ho'). rewrite (run_sk_Unwrap _ _ _ _ _ _ _ Ho').
      pose proof (sk_c _ _ _ _ _ _ Ho'). pose proof (sk_cm _ _ _ _ _ _ Ho') as Hcm. pose proof (sk_r _ _ _ _ _ _ Ho') as Hr'.
      assert (c' = c) as -> by congruence. unfold reader_at in Hrd. rewrite Hcm in Hrd. cbn in Hrd. congruence.
    + destruct (ra_open_wf h2 j b Hwf Hb Hns) as (c' & cm & r' & Ho'). rewrite (run_ra_Unwrap _ _ _ _ _ _ _ Ho').
      pose proof (ra_c _ _ _ _ _ _ Ho'). pose proof (ra_cm _ _ _ _ _ _ Ho') as Hcm. pose proof (ra_r _ _ _ _ _ _ Ho') as Hr'.
      assert (c' = c) as -> by congruence. unfold reader_at in Hrd. rewrite Hcm in Hrd. cbn in Hrd. congruence.
    + destruct (bf_open_wf h2 j b Hwf Hb Hns) as (c' & cm & r' & m & Ho'). rewrite (run_bf_Unwrap _ _ _ _ _ _ _ _ Ho').
      destruct Ho' as [B1 B2 B3 B4 B5 B6]. destruct B5 as [L1 _ _ _ _ _ _ _ _].
      assert (c' = c) as -> by congruence. unfold reader_at in Hrd. rewrite B4 in Hrd. cbn in Hrd. congruence. }
  exists s. cbn. unfold ybind, body_cmd. rewrite (uexec_safe U fuel _ _ (proj2 (proj2 Hgu))), Hex. by destruct s.
Qed.

(** ** Any program *)
Lemma wrapped_kept v s1 i cs s2 os : wrapped_in U fuel rd v s1 i cs s2 os -> kept_by (fun _ => True) 0 (s_h s2) /\ wgood U (world s2).
Proof.
  intros Hw. assert (Hcalm : calm U (fun _ _ => True)) by (by constructor).
  destruct (wrapped_new U fuel (fun _ _ => True) rd (fun _ => True) (kept_by (fun _ => True) 0) v s1 i cs s2 os Hcalm ltac:(done) ltac:(done) Hw) as [HI Hwg]; try done.
  { intros h new Hu _ Hgn Hwn Hf1 Hex. destruct (own_new E fuel rd h new (s_h s1) i (go_wenv U Hgu) Hu Hgn Hwn Hf1 Hex) as (_ & Ho & Hc). split; [lia|].
    exists (length (h_c h)), {[ i := true ]}. split; [done|]. split; [|by left]. split; [done|]. intros Ha. exfalso. apply (Ha i). apply lookup_singleton. }
  apply (wrapped_inv U fuel (fun _ _ => True) rd (kept_by (fun _ => True) 0) v s1 i cs s2 os Hcalm ltac:(done) ltac:(done) Hw); try done.
  - intros h c h' o HIh Hg Hnw Hex Hf. by eapply kept_step.
  - intros h w HIh _. by apply kept_world.
Qed.
Theorem closed_once_in v s1 i cs s2 os : wrapped_in U fuel rd v s1 i cs s2 os ->
  ((exists j, holds U fuel s2 j rd) -> Forall not_close (calls_on rd (h_log (s_h s2)))) /\ ((forall j, ~ holds U fuel s2 j rd) -> released U rd s2).
Proof.
  intros [(_ & c & t & Ho & [C1 C2] & _) _]%wrapped_kept. split.
  - intros (j & Hj). apply C1. intros Ha. apply (Ha j). by eapply holds_refers.
  - intros Hn. apply C2. intros j Hj. apply (Hn j). by eapply open_holds.
Qed.

(** ** Serve *)
Lemma serve_kept v s1 i cs s os r y k by_ u s' e : wrapped_in U fuel rd v s1 i cs s os ->
  s_rps s !! r = Some y -> target s k = Some (by_, u) -> owned_by U fuel rd s y ->
  texec U fuel (TDo (RServe r k)) s = (s', ORet (YErr e)) -> e = None \/ push_urls s y = [] -> feasible (s_h s') ->
  kept_by (fun _ => False) (length (h_b (s_h s))) (s_h s').
Proof.
  intros Hw Hr Ht Hown H He Hf. pose proof (wrapped_kept _ _ _ _ _ _ Hw) as [(_ & c & t & Ho & Hc & _) [Hwi _]]. set (n := length (h_b (s_h s))).
  assert (HI : kept_by (fun j => rp_body y = Some j) n (s_h s)). { split; [done|]. exists c, t. split; [done|]. split; [done|]. intros j Hj. left. apply Hown. by eapply open_holds. }
  assert (HI' : kept_by (fun j => rp_body y = Some j) n (s_h s')).
  { pose proof (runs_inv U fuel (fun _ _ => True) rd (kept_by (fun j => rp_body y = Some j) n) [TDo (RServe r k)] s s' [ORet (YErr e)] Hgu ltac:(by constructor) ltac:(done) ltac:(done)) as R.
    apply R; try done; try by apply Forall_singleton.
    - cbn [thistory]. by rewrite H.
    - intros h cmd h' o A1 A2 A3 A4 A5. by eapply kept_step.
    - intros h w A _. by apply kept_world. }
  assert (Hlog : exists new, wlog s' = wlog s ++ new).
  { pose proof (w_texec U fuel (TDo (RServe r k)) s Hwi) as [_ [[new Hn] _]]. rewrite H in Hn. by exists new. }
  destruct Hlog as [new Hlog]. destruct (closes U fuel s r y k by_ u s' e new Hr Ht (conj H Hlog)) as [(j & Hj & b & Hb & Hcl)|(l & err & _ & Hp & ->)].
  - destruct HI' as (Hn' & c' & t' & Ho' & Hc' & Ht'). split; [done|]. exists c', t'. split; [done|]. split; [done|]. intros j' Hj'. right.
    destruct (Ht' j' Hj') as [E|]; [|done]. exfalso. rewrite Hj in E. injection E as <-. destruct (open_holds c' t' s' j Ho' Hj') as [s3 H3]. rewrite Hcl in H3. by destruct b.
  - exfalso. destruct He as [He|He]; [done|]. rewrite He in Hp. inversion Hp.
Qed.
Lemma kept_let_go s s' : kept_by (fun _ => False) (length (h_b (s_h s))) (s_h s') -> let_go U fuel rd s s'.
Proof.
  intros (Hn & c & t & Ho & [C1 C2] & Ht). split.
  - intros j Hj. destruct (Ht j); [|done..]. by eapply holds_refers.
  - intros Hl. apply C2. intros j Hj. pose proof (own_dom _ _ _ _ _ Ho (mk_is_Some _ _ Hj)). destruct (Ht j Hj); [done|lia].
Qed.
Theorem serve_closes v s1 i cs s os r y k by_ u s' e : wrapped_in U fuel rd v s1 i cs s os ->
  s_rps s !! r = Some y -> target s k = Some (by_, u) -> owned_by U fuel rd s y ->
  texec U fuel (TDo (RServe r k)) s = (s', ORet (YErr e)) -> e = None \/ push_urls s y = [] -> feasible (s_h s') ->
  let_go U fuel rd s s'.
Proof. intros. apply kept_let_go. by eapply serve_kept. Qed.

(** ** Requests *)
Lemma returns_steps (P Q : rcmd -> Prop) inner s s' r : returns U fuel inner s s' r -> each P inner -> each Q inner ->
  exists cs os, thistory U fuel s cs = (s', os) /\ OSpin ∉ os /\ Forall (each_in P) cs /\ Forall (each_in Q) cs.
Proof.
  induction 1 as [r s|c f o s s1 s2 r Hc Ho _ IH]; intros HP HQ; [exists [], []; split; [done|]; split; [set_solver|done]|].
  destruct HP as [P1 P2], HQ as [Q1 Q2]. destruct (IH (P2 o) (Q2 o)) as (cs & os & H1 & H2 & H3 & H4). exists (TDo c :: cs), (o :: os). split; [|split; [set_solver|split; by apply Forall_cons]].
  cbn [thistory]. rewrite Hc, H1. by destruct o.
Qed.
Lemma defer_kept L n k pv s s' o : adaptor_defer U k pv s = (s', o) -> feasible (s_h s') -> kept_by L n (s_h s) -> kept_by L n (s_h s').
Proof.
  intros H Hf HI. set (G := fun c => go_cmd c /\ ~ wraps rd c).
  pose proof (h_defer U fuel (fun _ _ => True) G ltac:(done) ltac:(done) ltac:(by constructor) k pv s) as Hq.
  rewrite H in Hq. apply (hrun_inv U fuel (fun _ _ => True) G (kept_by L n) (s_h s) (s_h s')); try done.
  - intros h c h' o' A1 [A2 A3] A4 A5. by eapply kept_step.
  - intros h w A _. by apply kept_world.
Qed.
Lemma new_wraps k isHEAD s sw k' by_ u : target s k = Some (by_, u) -> texec U fuel (TDo (RNewWriter (Some k) isHEAD)) s = (sw, ORet (YHandle (Some k'))) ->
  NewWriter U (Some k) isHEAD s = (sw, ORet k') /\ exists y, v_objs (world sw) !! k' = Some (WWrap y) /\ ww_next y = u.
Proof.
  intros Ht H. assert (HN : NewWriter U (Some k) isHEAD s = (sw, ORet k')). { cbn in H. unfold ybind in H. destruct (NewWriter U (Some k) isHEAD s) as [s0 [w|e|]]; try done. by injection H as <- <-. }
  split; [done|]. unfold target in Ht. unfold NewWriter in HN. fold (world s) in HN. destruct (v_objs (world s) !! k) as [[|u'|y]|] eqn:Hk; try done.
  - injection Ht as <- <-. cbv zeta in HN. injection HN as <- <-. eexists. split; [cbn; by apply list_lookup_middle|done].
  - injection Ht as <- <-. injection HN as <- <-. by eexists.
Qed.
Definition wins (k' : wid) (inner : handler) (isHEAD : bool) k s sw s3 r y : Prop :=
  NewWriter U (Some k) isHEAD s = (sw, ORet k') /\ returns U fuel inner sw s3 r /\ s_rps s3 !! r = Some y.
Lemma ends k' inner isHEAD k s sw s3 r y s' o : wins k' inner isHEAD k s sw s3 r y -> texec U fuel (TServe inner (Some k) isHEAD) s = (s', o) ->
  exists s4 x, texec U fuel (TDo (RServe r k')) s3 = (s4, match x with ORet e => ORet (YErr e) | OPanic e => OPanic e | OSpin => OSpin end) /\
    match x with
    | ORet e => exists o1, adaptor_defer U k' (option_map PError e) s4 = (s', o1) /\ o = match o1 with ORet _ => ORet YUnit | OPanic e => OPanic e | OSpin => OSpin end
    | OPanic e => exists o1, adaptor_defer U k' (Some e) s4 = (s', o1) /\ o = match o1 with ORet _ => ORet YUnit | OPanic e => OPanic e | OSpin => OSpin end
    | OSpin => s' = s4 /\ o = OSpin
    end.
Proof.
  intros (HN & Hret & Hy) H. cbn in H. unfold ybind in H. unfold ServeHTTP in H. rewrite HN, (Reply.returns_run U fuel _ _ _ _ _ Hret Hy) in H.
  rewrite (texec_serve U fuel s3 r y k' Hy). unfold ybind. destruct (rp_Serve U fuel y k' s3) as [s4 x]. exists s4, x. split; [by destruct x|].
  destruct x as [[e|]|e|]; cbn in H |- *.
  1: destruct (adaptor_defer U k' (Some (PError e)) s4) as [s5 [[]|p|]]; injection H as <- <-; eexists; done.
  1: destruct (adaptor_defer U k' None s4) as [s5 [[]|p|]]; injection H as <- <-; eexists; done.
  1: destruct (adaptor_defer U k' (Some e) s4) as [s5 [[]|p|]]; injection H as <- <-; eexists; done.
  by injection H as <- <-.
Qed.
Lemma done_closes v s1 i cs s3 os k' inner isHEAD k s sw r y by_ u s4 e s' o :
  (feasible (s_h s3) -> wrapped_in U fuel rd v s1 i cs s3 os) -> wins k' inner isHEAD k s sw s3 r y -> target s3 k' = Some (by_, u) -> owned_by U fuel rd s3 y ->
  texec U fuel (TDo (RServe r k')) s3 = (s4, ORet (YErr e)) -> e = None \/ push_urls s3 y = [] ->
  texec U fuel (TServe inner (Some k) isHEAD) s = (s', o) -> feasible (s_h s') -> let_go U fuel rd s3 s'.
Proof.
  intros Hw Hwin Ht Hown Hsv He H Hf. destruct (ends _ _ _ _ _ _ _ _ _ _ _ Hwin H) as (s4' & x & Hsv' & Hx). rewrite Hsv in Hsv'. destruct x as [e'|e'|]; try done. injection Hsv' as <- <-.
  destruct Hx as (o1 & Hd & _).
  assert (Hf4 : feasible (s_h s4)). { eapply f_back; [apply (f_defer U fuel Hgu k' (option_map PError e))|]. by rewrite Hd. }
  assert (Hf3 : feasible (s_h s3)). { pose proof (f_texec U fuel Hgu (TDo (RServe r k')) s3 ltac:(done)) as Hq. rewrite Hsv in Hq. by eapply f_back. }
  apply kept_let_go. eapply (defer_kept _ _ k' _ s4 s' o1); [exact Hd|done|]. exact (serve_kept _ _ _ _ _ _ _ _ _ _ _ _ _ (Hw Hf3) (proj2 (proj2 Hwin)) Ht Hown Hsv He Hf4).
Qed.
Lemma done_fine k' inner isHEAD k s sw s3 r y s' l z :
  wins k' inner isHEAD k s sw s3 r y -> v_objs (world s3) !! k' = Some (WWrap z) -> winv U (world s3) ->
  texec U fuel (TServe inner (Some k) isHEAD) s = (s', ORet YUnit) -> s_met s' = s_met s ++ l -> panics_in l = 0%nat ->
  exists s4, texec U fuel (TDo (RServe r k')) s3 = (s4, ORet (YErr None)).
Proof.
  intros Hwin Hz Hwi H Hm Hl. destruct (ends _ _ _ _ _ _ _ _ _ _ _ Hwin H) as (s4 & x & Hsv & Hx). destruct Hwin as (HN & Hret & _).
  pose proof (w_texec U fuel (TDo (RServe r k')) s3 Hwi) as [_ (_ & _ & _ & Hgr)]. rewrite Hsv in Hgr. cbn in Hgr. destruct (Hgr k' z Hz) as (z4 & Hz4 & _).
  assert (Hm4 : s_met s4 = s_met s).
  { pose proof (Metrics.n_NewWriter U (Some k) isHEAD s) as M1. rewrite HN in M1. cbn in M1. pose proof (Reply.returns_met U fuel _ _ _ _ Hret) as M2.
    pose proof (Metrics.n_rdo U fuel (RServe r k') s3) as M3. cbn [texec] in Hsv. rewrite Hsv in M3. cbn in M3. congruence. }
  assert (Hno : forall p o1, adaptor_defer U k' (Some p) s4 = (s', o1) -> ORet YUnit = match o1 with ORet _ => ORet YUnit | OPanic e => OPanic e | OSpin => OSpin end -> False).
  { intros p o1 Hd Ho1. destruct (AdaptorMain.defer_run U s4 k' z4 (Some p) s' o1 Hz4 Hd) as (_ & _ & [(e & -> & _)|(M & _)]); [done|].
    rewrite M, Hm4 in Hm. apply app_inv_head in Hm as <-. done. }
  destruct x as [[e|]|e|].
  - destruct Hx as (o1 & Hd & Ho1). by destruct (Hno _ _ Hd Ho1).
  - eauto.
  - destruct Hx as (o1 & Hd & Ho1). by destruct (Hno _ _ Hd Ho1).
  - by destruct Hx.
Qed.

(** Before the request. *)
Section Before.
Context (v : V) (s1 : state V) (i : nat) (cs : list tcmd) (s : state V) (os : list (out reply)).
Context (k : wid) (by_ : option wid) (u : uid) (isHEAD : bool) (sw : state V) (k' : wid) (inner : handler) (s3 : state V) (r : nat) (y : response).
Hypothesis Hw : wrapped_in U fuel rd v s1 i cs s os.
Hypothesis Hsp : OSpin ∉ os.
Hypothesis Ht : target s k = Some (by_, u).
Hypothesis HT : texec U fuel (TDo (RNewWriter (Some k) isHEAD)) s = (sw, ORet (YHandle (Some k'))).
Hypothesis Hgo : each (go_rcmd U) inner.
Hypothesis Hspare : each (spares rd) inner.
Hypothesis Hret : returns U fuel inner sw s3 r.
Hypothesis Hy : s_rps s3 !! r = Some y.
Lemma before_facts : wins k' inner isHEAD k s sw s3 r y /\ (exists z, v_objs (world s3) !! k' = Some (WWrap z)) /\ winv U (world s3) /\
  exists cs' os', OSpin ∉ os' /\ (feasible (s_h s3) -> wrapped_in U fuel rd v s1 i cs' s3 os').
Proof.
  destruct (new_wraps _ _ _ _ _ _ _ Ht HT) as [HN (z & Hz & _)]. destruct (returns_steps (go_rcmd U) (spares rd) inner sw s3 r Hret Hgo Hspare) as (cs2 & os2 & H1 & H2 & H3 & H4).
  destruct (wrapped_kept _ _ _ _ _ _ Hw) as [_ [Hwi _]].
  pose proof (w_texec U fuel (TDo (RNewWriter (Some k) isHEAD)) s Hwi) as [Hwi1 _]. rewrite HT in Hwi1. cbn in Hwi1.
  pose proof (w_history U fuel sw cs2) as Hh. rewrite H1 in Hh. cbn in Hh. destruct (Hh Hwi1) as [Hwi3 (_ & _ & _ & Hgr)]. destruct (Hgr k' z Hz) as (z3 & Hz3 & _).
  split; [done|]. split; [by exists z3|]. split; [done|]. exists (cs ++ TDo (RNewWriter (Some k) isHEAD) :: cs2), (os ++ ORet (YHandle (Some k')) :: os2).
  split; [rewrite elem_of_app, elem_of_cons; intros [?|[?|?]]; done|]. intros Hf. destruct Hw as (_ & n & maps & arrs & cs0 & os0 & s0 & new & G1 & G2 & G3 & G4 & G5 & G6 & G7 & G8).
  split; [done|]. exists n, maps, arrs, cs0, os0, s0, new. apply Forall_app in G1 as [G1 G1'], G2 as [G2 G2'].
  split; [apply Forall_app; split; [done|]; apply Forall_app; split; [done|]; apply Forall_cons; done|].
  split; [apply Forall_app; split; [done|]; apply Forall_app; split; [done|]; apply Forall_cons; done|].
  do 4 (split; [done|]). split; [|done]. rewrite (hist_app U fuel _ _ _ _ _ G7 Hsp). cbn [thistory]. rewrite HT, H1. done.
Qed.
Theorem request_closes s4 e s' o : owned_by U fuel rd s3 y ->
  texec U fuel (TDo (RServe r k')) s3 = (s4, ORet (YErr e)) -> e = None \/ push_urls s3 y = [] ->
  texec U fuel (TServe inner (Some k) isHEAD) s = (s', o) -> feasible (s_h s') -> let_go U fuel rd s3 s'.
Proof.
  intros Hown Hsv He H Hf. destruct before_facts as (Hwin & (z & Hz) & _ & cs' & os' & _ & Hw').
  eapply (done_closes v s1 i cs' s3 os' k' inner isHEAD k s sw r y (Some k') (ww_next z)); try done. unfold target. by rewrite Hz.
Qed.
Theorem request_fine s' l : owned_by U fuel rd s3 y ->
  texec U fuel (TServe inner (Some k) isHEAD) s = (s', ORet YUnit) -> s_met s' = s_met s ++ l -> panics_in l = 0%nat -> feasible (s_h s') -> let_go U fuel rd s3 s'.
Proof.
  intros Hown H Hm Hl Hf. destruct before_facts as (Hwin & (z & Hz) & Hwi & _). destruct (done_fine _ _ _ _ _ _ _ _ _ _ _ _ Hwin Hz Hwi H Hm Hl) as [s4 Hsv].
  exact (request_closes s4 None s' _ Hown Hsv (or_introl eq_refl) H Hf).
Qed.
End Before.

(** During the request. *)
Section During.
Context (v : V) (n : nat) (maps : list (gmap string slice_)) (arrs : list (list string)) (cs : list tcmd) (s : state V) (os : list (out reply)).
Context (k : wid) (by_ : option wid) (u : uid) (isHEAD : bool) (sw : state V) (k' : wid) (new : cmd) (s1 : state V) (i : nat) (rest : nat -> handler) (s3 : state V) (r : nat) (y : response).
Hypothesis Hcs : Forall (each_in (go_rcmd U)) cs.
Hypothesis Hcs' : Forall (each_in (spares rd)) cs.
Hypothesis Hh : thistory U fuel (tinitial v n maps arrs) cs = (s, os).
Hypothesis Hsp : OSpin ∉ os.
Hypothesis Ht : target s k = Some (by_, u).
Hypothesis HT : texec U fuel (TDo (RNewWriter (Some k) isHEAD)) s = (sw, ORet (YHandle (Some k'))).
Hypothesis Hnew : go_cmd new.
Hypothesis Hwr : wraps rd new.
Hypothesis HR : texec U fuel (TDo (RB new)) sw = (s1, ORet (YBody (RBody i None))).
Hypothesis Hgo : each (go_rcmd U) (rest i).
Hypothesis Hspare : each (spares rd) (rest i).
Hypothesis Hret : returns U fuel (rest i) s1 s3 r.
Hypothesis Hy : s_rps s3 !! r = Some y.
Lemma during_facts : wins k' (opening new rest) isHEAD k s sw s3 r y /\ (exists z, v_objs (world s3) !! k' = Some (WWrap z)) /\ winv U (world s3) /\
  exists cs' os', OSpin ∉ os' /\ (feasible (s_h s3) -> wrapped_in U fuel rd v s1 i cs' s3 os').
Proof.
  destruct (new_wraps _ _ _ _ _ _ _ Ht HT) as [HN (z & Hz & _)]. destruct (returns_steps (go_rcmd U) (spares rd) (rest i) s1 s3 r Hret Hgo Hspare) as (cs2 & os2 & H1 & H2 & H3 & H4).
  pose proof (good_of U fuel v n maps arrs cs s os Hh) as [Hwi _].
  pose proof (w_texec U fuel (TDo (RNewWriter (Some k) isHEAD)) s Hwi) as [Hwi1 _]. rewrite HT in Hwi1. cbn in Hwi1.
  assert (H1' : thistory U fuel sw (TDo (RB new) :: cs2) = (s3, ORet (YBody (RBody i None)) :: os2)) by (cbn [thistory]; by rewrite HR, H1).
  pose proof (w_history U fuel sw (TDo (RB new) :: cs2)) as Hh'. rewrite H1' in Hh'. cbn in Hh'. destruct (Hh' Hwi1) as [Hwi3 (_ & _ & _ & Hgr)]. destruct (Hgr k' z Hz) as (z3 & Hz3 & _).
  split. { split; [done|]. split; [|done]. eapply rt_do; [exact HR|done|]. exact Hret. }
  split; [by exists z3|]. split; [done|]. exists cs2, os2. split; [done|]. intros Hf. split; [done|].
  exists n, maps, arrs, (cs ++ [TDo (RNewWriter (Some k) isHEAD)]), (os ++ [ORet (YHandle (Some k'))]), sw, new.
  split; [apply Forall_app; split; [apply Forall_app; split; [done|]; by apply Forall_singleton|done]|].
  split; [apply Forall_app; split; [apply Forall_app; split; [done|]; by apply Forall_singleton|done]|].
  do 2 (split; [done|]). split; [by apply (hist_snoc U fuel _ _ _ _ _ _ _ Hh Hsp)|]. done.
Qed.
Theorem opened_closes s4 e s' o : owned_by U fuel rd s3 y ->
  texec U fuel (TDo (RServe r k')) s3 = (s4, ORet (YErr e)) -> e = None \/ push_urls s3 y = [] ->
  texec U fuel (TServe (opening new rest) (Some k) isHEAD) s = (s', o) -> feasible (s_h s') -> let_go U fuel rd s3 s'.
Proof.
  intros Hown Hsv He H Hf. destruct during_facts as (Hwin & (z & Hz) & _ & cs' & os' & _ & Hw').
  eapply (done_closes v s1 i cs' s3 os' k' (opening new rest) isHEAD k s sw r y (Some k') (ww_next z)); try done. unfold target. by rewrite Hz.
Qed.
Theorem opened_fine s' l : owned_by U fuel rd s3 y ->
  texec U fuel (TServe (opening new rest) (Some k) isHEAD) s = (s', ORet YUnit) -> s_met s' = s_met s ++ l -> panics_in l = 0%nat -> feasible (s_h s') -> let_go U fuel rd s3 s'.
Proof.
  intros Hown H Hm Hl Hf. destruct during_facts as (Hwin & (z & Hz) & Hwi & _). destruct (done_fine _ _ _ _ _ _ _ _ _ _ _ _ Hwin Hz Hwi H Hm Hl) as [s4 Hsv].
  exact (opened_closes s4 None s' _ Hown Hsv (or_introl eq_refl) H Hf).
Qed.
End During.
End Close.
