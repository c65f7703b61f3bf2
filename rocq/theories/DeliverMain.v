(** * What Serve delivers (proofs) *)
From stdpp Require Import gmap.
From Coq Require Import ZifyBool.
From Verif Require Import RespFacts DeliverSpec Post Quiet Wf WfUpd Seeker ReaderAt Buffered Preserve Effect Family ServeProofs WriterProofs ServeMain Own Mem Source Stream ProofsStream HeapRun Deliver DeliverFam WriterMain Twins.

(** ** The world as Bodies see it *)
Section Env.
Context {V : Type} (U : uenv V).
Lemma go_wenv : go_uenv U -> go_env (wenv U).
Proof.
  intros [[H1 H2] _]. split.
  - intros w r. cbn. specialize (H1 (v_v w) r). by destruct (ev_stat _ _ _).
  - intros w r off wh. cbn. specialize (H2 (v_v w) r off wh). by destruct (ev_seek _ _ _ _ _).
Qed.
Lemma until_closed_w r (live : V -> Prop) : calm U (fun v v' => live v -> live v') -> until_closed (u_env U) r live -> until_closed (wenv U) r (fun w => live (v_v w)).
Proof.
  intros Hcalm [H1 H2 H3 H4 H5 H6]. constructor.
  - intros w r' p Hl. cbn. specialize (H1 _ r' p Hl). by destruct (ev_read _ _ _ _).
  - intros w r' p off Hl. cbn. specialize (H2 _ r' p off Hl). by destruct (ev_readat _ _ _ _ _).
  - intros w r' off wh Hl. cbn. specialize (H3 _ r' off wh Hl). by destruct (ev_seek _ _ _ _ _).
  - intros w r' Hl. cbn. specialize (H4 _ r' Hl). by destruct (ev_stat _ _ _).
  - intros w x p. cbn. apply (wv_any_Write U (fun v v' => live v -> live v')); [by intros v|intros v1 v2 v3; tauto|done].
  - intros w r' Hr Hl. cbn. specialize (H6 _ r' Hr Hl). by destruct (ev_close _ _ _).
Qed.
Lemma serves_at_w r (live : V -> Prop) d early : calm U (fun v v' => live v -> live v') -> serves_at (u_env U) r live d early -> serves_at (wenv U) r (fun w => live (v_v w)) d early.
Proof.
  intros Hcalm [H1 H2]. split; [by apply until_closed_w|]. intros w p off w' n q err Hl Hoff. cbn.
  destruct (ev_readat _ _ _ _ _) as [v [[n' q'] err']] eqn:Hr. intros [= <- <- <- <-]. by eapply H2.
Qed.
Lemma serves_seek_w r (live : V -> Prop) d early : calm U (fun v v' => live v -> live v') -> serves_seek (u_env U) r live d early -> serves_seek (wenv U) r (fun w => live (v_v w)) d early.
Proof.
  intros Hcalm [H1 H2]. split; [by apply until_closed_w|]. intros w off Hl Hoff. cbn. destruct (H2 (v_v w) off Hl Hoff) as (v1 & n1 & Hs & Hrd). rewrite Hs.
  eexists _, n1. split; [done|]. intros p w' n q err. cbn. destruct (ev_read _ _ _ _) as [v [[n' q'] err']] eqn:Hr. intros [= <- <- <- <-]. by eapply Hrd.
Qed.
Lemma streams_w r (gp : V -> nat) d e : calm U (fun v v' => gp v' = gp v) -> streams (u_env U) r gp d e -> streams (wenv U) r (fun w => gp (v_v w)) d e.
Proof.
  intros Hcalm [H1 H2 H3 H4 H5 H6 H7]. constructor.
  - intros w p w' n q err. cbn. destruct (ev_read _ _ _ _) as [v [[n' q'] err']] eqn:Hr. intros [= <- <- <- <-]. by eapply H1.
  - intros w r' p Hr. cbn. specialize (H2 (v_v w) r' p Hr). by destruct (ev_read _ _ _ _).
  - intros w r' p off Hr. cbn. specialize (H3 (v_v w) r' p off Hr). by destruct (ev_readat _ _ _ _ _).
  - intros w r' off wh Hr. cbn. specialize (H4 (v_v w) r' off wh Hr). by destruct (ev_seek _ _ _ _ _).
  - intros w r'. cbn. specialize (H5 (v_v w) r'). by destruct (ev_close _ _ _).
  - intros w r'. cbn. specialize (H6 (v_v w) r'). by destruct (ev_stat _ _ _).
  - intros w x p. cbn. apply (wv_any_Write U (fun v v' => gp v' = gp v)); [by intros v|intros v1 v2 v3; congruence|done].
Qed.
End Env.

(** ** Programs *)
Lemma each_and P Q f : each P f -> each Q f -> each (fun c => P c /\ Q c) f.
Proof. induction f as [|e|c k IH]; cbn; [done..|]. intros [H1 H2] [H3 H4]. split; [done|]. auto. Qed.
Lemma each_mono (P Q : rcmd -> Prop) f : (forall c, P c -> Q c) -> each P f -> each Q f.
Proof. intros HPQ. induction f as [|e|c k IH]; cbn; [done..|]. intros [H1 H2]. auto. Qed.
Lemma each_in_mono (P Q : rcmd -> Prop) c : (forall c, P c -> Q c) -> each_in P c -> each_in Q c.
Proof. intros HPQ. destruct c; cbn; [auto|]. by apply each_mono. Qed.
Lemma each_in_and P Q c : each_in P c -> each_in Q c -> each_in (fun c => P c /\ Q c) c.
Proof. destruct c; cbn; [auto|]. by apply each_and. Qed.

Local Notation wf := Verif.Wf.wf.
Section Prog.
Context {V : Type} (U : uenv V) (fuel : nat).
Implicit Types s : state V.
Notation E := (wenv U).
Lemma good_of v n maps arrs cs s os : thistory U fuel (tinitial v n maps arrs) cs = (s, os) -> wgood U (world s).
Proof.
  intros H. pose proof (w_history U fuel (tinitial v n maps arrs) cs) as Hw. rewrite H in Hw.
  apply (wgood_step U _ _ Hw). apply wgood_initial.
Qed.
(** What every kind of Body allows to be concluded. *)
Definition enough_for (Q : Prop -> state V -> nat -> bytes -> Prop) : Prop := forall vR busy wt Inv,
  flow U fuel vR busy wt Inv -> calm U vR -> Reflexive vR -> Transitive vR ->
  forall s T i R, Inv T (s_h s) -> T !! i = Some R -> zlen R <= max_i64 \/ wt = false -> wgood U (world s) -> Q busy s i R.
Lemma enough_delivers : enough_for (delivers U fuel).
Proof. intros vR busy wt Inv Hfl Hcalm Hr Ht s T i R HI HT _ Hw. eapply deliver; try done. by apply wgood_caps. Qed.
Lemma enough_drains : enough_for (drains U fuel).
Proof. intros vR busy wt Inv Hfl Hcalm Hr Ht s T i R HI HT Hz Hw. eapply drain; done. Qed.
Lemma enough_twins : enough_for (twins U fuel).
Proof. intros vR busy wt Inv Hfl Hcalm Hr Ht s T i R HI HT _ Hw. eapply twin; done. Qed.
Lemma runs_inv (vR : V -> V -> Prop) r (I : heap (wst V) -> Prop) cs s s' os :
  go_uenv U -> calm U vR -> Reflexive vR -> Transitive vR ->
  Forall (each_in (go_rcmd U)) cs -> Forall (each_in (spares r)) cs -> thistory U fuel s cs = (s', os) -> feasible (s_h s') ->
  (forall h c h' o, I h -> go_cmd c -> ~ wraps r c -> exec E fuel h c = (h', o) -> feasible h' -> I h') ->
  (forall h w, I h -> vR (v_v (h_w h)) (v_v w) -> I (heap_w h w)) ->
  I (s_h s) -> I (s_h s').
Proof.
  intros (Hge & Hrf & Hsafe) Hcalm Hr Ht Hgo Hsp Hh Hf H1 H2 HI. set (G := fun c => go_cmd c /\ ~ wraps r c).
  assert (Hall : Forall (each_in (allowed U G)) cs).
  { apply Forall_forall. intros c Hc. rewrite Forall_forall in Hgo, Hsp. specialize (Hgo c Hc). specialize (Hsp c Hc).
    apply (each_in_mono (fun c => go_rcmd U c /\ spares r c)); [|by apply each_in_and]. intros c' [H3 H4]. split; [done|]. intros c'' ->. done. }
  pose proof (h_history U fuel vR G Hr Ht Hcalm Hrf Hsafe) as Hhist.
  assert (HR : hR U fuel vR G s s').
  { specialize (Hhist ltac:(intros i f Hgf; split; [done|by intros [|[n ?]]]) ltac:(intros d Hd; split; [done|by intros [|[n ?]]]) s cs Hall). by rewrite Hh in Hhist. }
  apply (hrun_inv U fuel vR G I (s_h s) (s_h s')); try done. intros h c h' o HIh [HG1 HG2]. by apply H1.
Qed.
Lemma runs_wf s : runs_to U fuel s -> wf (s_h s) /\ wgood U (world s).
Proof.
  intros (Hgu & v & n & maps & arrs & cs & os & Hgo & Hh & Hf). split; [|by eapply good_of].
  pose proof (go_wenv U Hgu) as Hgw. destruct Hgu as (Hge & Hrf & Hsafe).
  assert (Hall : Forall (each_in (allowed U go_cmd)) cs).
  { eapply Forall_impl; [exact Hgo|]. intros c. apply each_in_mono. intros c' Hc'. split; [done|]. by intros c'' ->. }
  assert (HR : hR U fuel (fun _ _ => True) go_cmd (tinitial v n maps arrs) s).
  { pose proof (h_history U fuel (fun _ _ => True) go_cmd ltac:(done) ltac:(done) ltac:(by constructor) Hrf Hsafe ltac:(done) ltac:(done) (tinitial v n maps arrs) cs Hall) as H. by rewrite Hh in H. }
  apply (hrun_inv U fuel (fun _ _ => True) go_cmd wf _ _) in HR; try done.
  - intros h c h' o Hwf Hc Hex Hfe. by eapply exec_wf.
  - intros h w [W1 W2 W3 W4] _. by constructor.
  - apply wf_initial.
Qed.

(** Which Bodies are made of [r]. *)
Lemma holds_refers r c t s j : own r c t (s_h s) -> holds U fuel s j r -> t !! j = Some true.
Proof.
  intros Ho [s' Hs]. apply texec_body in Hs as (h' & Hex & _). apply (ow_open _ _ _ _ Ho). pose proof (ow_wf _ _ _ _ Ho) as Hwf.
  unfold exec, cmd_prog in Hex. destruct (h_b (s_h s) !! j) as [b|] eqn:Hb; [|done]. exists b. split; [done|].
  destruct (shut b) eqn:Hsh.
  { exfalso. pose proof (shut_exec E fuel (s_h s) j b Unwrap Hb Hsh) as Hx. unfold exec, cmd_prog in Hx. rewrite Hb, Hex in Hx. by destruct b. }
  assert (Huq : forall c', body_common b = Some c' -> reader_at (s_h s) c' = Some r -> body_common b = Some c).
  { intros c' Hc' Hrd. destruct (decide (c' = c)) as [->|Hne]; [done|]. by destruct (ow_uniq _ _ _ _ Ho c' Hne). }
  destruct b as [|b|b|b|b|b]; cbn in Hsh; cbn [method] in Hex; try done.
  - destruct (sk_open_wf (s_h s) j b Hwf Hb Hsh) as (c' & cm & r' & Hop). rewrite run_rreader, (run_sk_Unwrap _ _ _ _ _ _ _ Hop) in Hex. injection Hex as _ ->.
    destruct Hop as [sk_b0 sk_ncl0 sk_c0 sk_cm0 sk_r0 sk_off0 sk_len0]. apply (Huq c'); [done|]. unfold reader_at. by rewrite sk_cm0.
  - destruct (ra_open_wf (s_h s) j b Hwf Hb Hsh) as (c' & cm & r' & Hop). rewrite run_rreader, (run_ra_Unwrap _ _ _ _ _ _ _ Hop) in Hex. injection Hex as _ ->.
    destruct Hop as [ra_b0 ra_ncl0 ra_c0 ra_cm0 ra_r0 ra_at0 ra_off0 ra_len0]. apply (Huq c'); [done|]. unfold reader_at. by rewrite ra_cm0.
  - destruct (bf_open_wf (s_h s) j b Hwf Hb Hsh) as (c' & cm & r' & m & Hop). rewrite run_rreader, (run_bf_Unwrap _ _ _ _ _ _ _ _ Hop) in Hex. injection Hex as _ ->.
    destruct Hop as [bf_b0 bf_ncl0 bf_c0 bf_cm0 bf_live0 bf_eof0]. apply (Huq c'); [done|]. unfold reader_at. rewrite bf_cm0. exact (lb_r _ _ _ _ _ bf_live0).
Qed.

(** ** Bytes in memory *)
Theorem memory Q s j b : enough_for Q -> runs_to U fuel s -> h_b (s_h s) !! j = Some (BBytes b) -> by_closed b = false ->
  Q False s j (if by_eof b then [] else drop (Z.to_nat (by_offset b)) (by_data b)).
Proof.
  intros HQ Hr Hj Hcl. destruct (runs_wf s Hr) as [Hwf Hcaps]. destruct (wf_b _ Hwf _ _ Hj) as [Hb1 Hb2].
  set (d := by_data b). apply (HQ (fun _ _ => True) False true _ (mem_flow U fuel d (proj2 (proj2 (proj1 Hr))))) with (T := {[j := if by_eof b then [] else drop (Z.to_nat (by_offset b)) d]}).
  - by constructor.
  - by intros v.
  - by intros v1 v2 v3.
  - exists {[j := At (Z.to_nat (by_offset b)) (by_eof b)]}. split.
    + intros i st Hi. apply lookup_singleton_Some in Hi as [<- <-]. exists (BBytes b). split; [done|]. cbn. split; [done|]. unfold zlen in Hb1. split; [unfold d; lia|].
      rewrite Z2Nat.id by lia. destruct b. cbn in *. by subst.
    + intros i R Hi. apply lookup_singleton_Some in Hi as [<- <-]. eexists. split; [apply lookup_singleton|done].
  - apply lookup_singleton.
  - left. unfold d. destruct (by_eof b); [done|]. unfold zlen in *. rewrite drop_length. unfold max_slice, max_i64 in *. lia.
  - exact Hcaps.
Qed.

(** ** A Body made of a Reader *)
Lemma announced_heap s i D : announced U fuel s i D -> exec E fuel (s_h s) (Call i BytesRemaining) = (s_h s, ORet (RInt D)).
Proof. intros H. apply texec_body in H as (h' & Hex & Hs). rewrite Hex. f_equal. apply (f_equal s_h) in Hs. by symmetry. Qed.
Lemma wrapped_new (vR : V -> V -> Prop) r (I0 I1 : heap (wst V) -> Prop) v s1 i cs s2 os :
  calm U vR -> Reflexive vR -> Transitive vR -> wrapped_in U fuel r v s1 i cs s2 os ->
  (forall h, h_log h = [] -> v_v (h_w h) = v -> I0 h) ->
  (forall h c h' o, I0 h -> unowned r h' -> go_cmd c -> ~ wraps r c -> exec E fuel h c = (h', o) -> feasible h' -> I0 h') ->
  (forall h w, I0 h -> vR (v_v (h_w h)) (v_v w) -> I0 (heap_w h w)) ->
  (forall h new, unowned r h -> I0 h -> go_cmd new -> wraps r new -> feasible (s_h s1) -> exec E fuel h new = (s_h s1, ORet (RBody i None)) -> I1 (s_h s1)) ->
  I1 (s_h s1) /\ wgood U (world s1).
Proof.
  intros Hcalm Hrefl Htrans (Hgo & n & maps & arrs & cs0 & os0 & s0 & new & Hg & Hsp & Hgn & Hw & H0 & H1 & H2 & Hf2) Hinit Hst0 Hw0 Hnew.
  pose proof (go_wenv U Hgo) as Hgw. apply Forall_app in Hg as [Hg0 Hg]. apply Forall_app in Hsp as [Hsp0 Hsp]. split.
  - apply texec_body in H1 as (h1 & H1 & ->).
    assert (Hf1 : feasible h1).
    { assert (Hall : Forall (each_in (allowed U go_cmd)) cs).
      { eapply Forall_impl; [exact Hg|]. intros c. apply each_in_mono. intros c' Hc'. split; [done|]. by intros c'' ->. }
      pose proof (h_history U fuel (fun _ _ => True) go_cmd ltac:(done) ltac:(done) ltac:(by constructor) (proj1 (proj2 Hgo)) (proj2 (proj2 Hgo)) ltac:(done) ltac:(done) (put_h s0 h1) cs Hall) as HR.
      rewrite H2 in HR. by eapply (hrun_feasible U fuel (fun _ _ => True) go_cmd) in HR. }
    assert (Hf0 : feasible (s_h s0)) by (by eapply exec_feasible).
    assert (HI0 : unowned r (s_h s0) /\ I0 (s_h s0)).
    { apply (runs_inv vR r (fun h => unowned r h /\ I0 h) cs0 (tinitial v n maps arrs) s0 os0); try done.
      - intros h c h' o [Hu HI] Hgc Hnw Hex Hfe. assert (Hu' : unowned r h') by (by eapply unowned_step). split; [done|]. by eapply Hst0.
      - intros h w [Hu HI] Hv. split; [|by apply Hw0]. destruct Hu as [[W1 W2 W3 W4] W5 W6]. constructor; [by constructor|done|done].
      - split; [apply (unowned_initial r)|]. by apply Hinit. }
    destruct HI0 as [Hu HI0]. by eapply Hnew.
  - pose proof (w_history U fuel (tinitial v n maps arrs) cs0) as HA. rewrite H0 in HA. pose proof (w_texec U fuel (TDo (RB new)) s0) as HB. rewrite H1 in HB. cbn in HA, HB.
    apply (wgood_step U _ _ HB), (wgood_step U _ _ HA), wgood_initial.
Qed.
Lemma wrapped_inv (vR : V -> V -> Prop) r (I1 : heap (wst V) -> Prop) v s1 i cs s2 os :
  calm U vR -> Reflexive vR -> Transitive vR -> wrapped_in U fuel r v s1 i cs s2 os ->
  I1 (s_h s1) -> wgood U (world s1) ->
  (forall h c h' o, I1 h -> go_cmd c -> ~ wraps r c -> exec E fuel h c = (h', o) -> feasible h' -> I1 h') ->
  (forall h w, I1 h -> vR (v_v (h_w h)) (v_v w) -> I1 (heap_w h w)) ->
  I1 (s_h s2) /\ wgood U (world s2).
Proof.
  intros Hcalm Hrefl Htrans (Hgo & n & maps & arrs & cs0 & os0 & s0 & new & Hg & Hsp & Hgn & Hw & H0 & H1 & H2 & Hf2) HI Hwi Hst1 Hw1.
  apply Forall_app in Hg as [Hg0 Hg]. apply Forall_app in Hsp as [Hsp0 Hsp]. split.
  - by apply (runs_inv vR r I1 cs s1 s2 os).
  - pose proof (w_history U fuel s1 cs) as HC. rewrite H2 in HC. by apply (wgood_step U _ _ HC).
Qed.
End Prog.

(** ** Seekable Readers *)
Section Seekable.
Context {V : Type} (U : uenv V) (fuel : nat) (k : skind) (r : rid) (live : V -> Prop) (d : bytes) (early : bool) (D : nat).
Notation E := (wenv U).
Notation lw := (fun w : wst V => live (v_v w)).
Notation vR := (fun v v' : V => live v -> live v').
Hypothesis Hserve : match k with KAt => serves_at (u_env U) r live d early | KSeek => serves_seek (u_env U) r live d early end.
Hypothesis Hcalm : calm U vR.
Hypothesis Hgo : go_uenv U.
Context (Q : Prop -> state V -> nat -> bytes -> Prop).
Hypothesis HQ : enough_for U fuel Q.
Hypothesis HD : (D <= length d)%nat.
Let F := first_bytes r early (Z.of_nat D) d.
Lemma serve_w : match k with KAt => serves_at E r lw d early | KSeek => serves_seek E r lw d early end.
Proof. pose proof Hserve as H. revert H. generalize k. intros []; [by apply serves_at_w|by apply serves_seek_w]. Qed.
Lemma vR_refl : Reflexive vR. Proof. by intros v. Qed.
Lemma vR_trans : Transitive vR. Proof. intros v1 v2 v3. tauto. Qed.
Lemma src_world c t (h : heap (wst V)) w : src_inv k r lw D c t h -> vR (v_v (h_w h)) (v_v w) -> src_inv k r lw D c t (heap_w h w).
Proof.
  intros [H1 H2 H3 H4 H5 H6] Hv. constructor; try done.
  - destruct H1 as [W1 W2 W3 W4 W5 W6 W7]. constructor; try done. by destruct W1.
  - intros Hna. cbn. by apply Hv, H5.
Qed.
Lemma src_flow c : flow U fuel vR False false (fam_inv F (src_inv k r lw D c)).
Proof.
  assert (Hl : length (fam_data F) = D) by (unfold F; cbn; rewrite Nat2Z.id; by apply take_length_le).
  apply fam_flow; [..|exact (proj2 (proj2 Hgo))].
  - intros t h i pos e HI Hi. destruct (sr_at _ _ _ _ _ _ _ HI i pos e Hi) as [Hb Hp]. split; [by rewrite Hl|]. eexists. split; [done|]. generalize k. by intros [].
  - intros t h w. apply src_world.
  - intros t h i pos e f h' o HI Hi Hf Hnw Hex Hfe.
    pose proof (src_step E fuel k r lw d early D serve_w HD c t h (Call i f) h' o (go_wenv U Hgo) HI Hf ltac:(by intros [|[n ?]]) Hfe Hex) as H. cbn in H. by rewrite Hi in H.
  - done.
Qed.
Lemma src_made v s1 i cs s2 os :
  match k with KAt => cp_readerat (ev_caps (u_env U) r) = true | KSeek => cp_readerat (ev_caps (u_env U) r) = false /\ cp_seeker (ev_caps (u_env U) r) = true end ->
  live v -> wrapped_in U fuel r v s1 i cs s2 os -> announced U fuel s1 i (Z.of_nat D) ->
  (exists c, src_inv k r lw D c {[ i := At 0 false ]} (s_h s1)) /\ wgood U (world s1).
Proof.
  intros Hkind Hl Hw Hann. apply (wrapped_new U fuel vR r (fun h => lw (h_w h)) (fun h => exists c, src_inv k r lw D c {[ i := At 0 false ]} h) v s1 i cs s2 os Hcalm vR_refl vR_trans Hw).
  - intros h _ Hv. by rewrite Hv.
  - intros h cmd h' o Hlv Hu Hgc Hnw Hex Hfe. destruct (exec_log E _ _ _ _ _ Hex) as [evs Hlog]. eapply (live_exec E fuel k r lw d early serve_w h cmd h' o evs); try done.
    pose proof (un_log _ _ Hu) as Hx. rewrite Hlog, calls_on_app in Hx. apply app_eq_nil in Hx as [_ ->]. constructor.
  - intros h w Hlv Hv. by apply Hv.
  - intros h new Hu Hlv Hgn Hwn Hf1 Hex. exists (length (h_c h)).
    by apply (src_new E fuel k r lw d early D serve_w HD h new (s_h s1) i (go_wenv U Hgo) Hu Hgn Hwn Hf1 Hex (announced_heap U fuel s1 i _ Hann) Hkind).
Qed.
Lemma src_deliver c t s j pos e : src_inv k r lw D c t (s_h s) -> t !! j = Some (At pos e) ->
  wgood U (world s) -> Q False s j (if e then [] else drop pos (take D d)).
Proof.
  intros HI Hj Hcaps. apply (HQ vR False false _ (src_flow c) Hcalm vR_refl vR_trans) with (T := {[ j := if e then [] else drop pos (take D d) ]}); [|apply lookup_singleton|by right|done].
  exists t. split; [done|]. intros i' R Hi'. apply lookup_singleton_Some in Hi' as [<- <-]. eexists. split; [done|]. unfold F. cbn. by rewrite Nat2Z.id.
Qed.
Theorem seekable v s1 i cs s2 os j :
  match k with KAt => cp_readerat (ev_caps (u_env U) r) = true | KSeek => cp_readerat (ev_caps (u_env U) r) = false /\ cp_seeker (ev_caps (u_env U) r) = true end ->
  live v -> wrapped_in U fuel r v s1 i cs s2 os -> announced U fuel s1 i (Z.of_nat D) -> holds U fuel s2 j r ->
  exists P R, take D d = P ++ R /\ Q False s2 j R.
Proof.
  intros Hkind Hl Hw Hann Hh. destruct (src_made v s1 i cs s2 os Hkind Hl Hw Hann) as [[c HI1] Hwi].
  destruct (wrapped_inv U fuel vR r (fun h => exists t, src_inv k r lw D c t h) v s1 i cs s2 os Hcalm vR_refl vR_trans Hw) as [[t HI] Hcaps]; [eauto|done|..].
  - intros h cmd h' o [t HI] Hgc Hnw Hex Hfe.
    pose proof (src_step E fuel k r lw d early D serve_w HD _ t h cmd h' o (go_wenv U Hgo) HI Hgc Hnw Hfe Hex) as H. destruct cmd as [i' f| | | | | | |]; eauto.
    destruct (t !! i'); [|eauto]. destruct H as (x & t' & _ & _ & H). eauto.
  - intros h w [t HI] Hv. exists t. by apply src_world.
  - pose proof (holds_refers U fuel r c _ s2 j (sr_own _ _ _ _ _ _ _ HI) Hh) as Ho. apply open_lookup in Ho as (pos & e & Hj).
    exists (if e then take D d else take pos (take D d)), (if e then [] else drop pos (take D d)). split; [destruct e; [by rewrite app_nil_r|by rewrite take_drop]|].
    by eapply src_deliver.
Qed.
Theorem seekable_fresh v s1 i cs s2 os :
  match k with KAt => cp_readerat (ev_caps (u_env U) r) = true | KSeek => cp_readerat (ev_caps (u_env U) r) = false /\ cp_seeker (ev_caps (u_env U) r) = true end ->
  live v -> wrapped_in U fuel r v s1 i cs s2 os -> announced U fuel s1 i (Z.of_nat D) -> h_b (s_h s2) !! i = h_b (s_h s1) !! i ->
  Q False s2 i (take D d).
Proof.
  intros Hkind Hl Hw Hann Hun. destruct (src_made v s1 i cs s2 os Hkind Hl Hw Hann) as [[c HI1] Hwi].
  destruct (wrapped_inv U fuel vR r (fun h => exists t, src_inv k r lw D c t h) v s1 i cs s2 os Hcalm vR_refl vR_trans Hw) as [[t HI] Hcaps]; [eauto|done|..].
  - intros h cmd h' o [t HI] Hgc Hnw Hex Hfe.
    pose proof (src_step E fuel k r lw d early D serve_w HD _ t h cmd h' o (go_wenv U Hgo) HI Hgc Hnw Hfe Hex) as H. destruct cmd as [i' f| | | | | | |]; eauto.
    destruct (t !! i'); [|eauto]. destruct H as (x & t' & _ & _ & H). eauto.
  - intros h w [t HI] Hv. exists t. by apply src_world.
  - destruct (sr_at _ _ _ _ _ _ _ HI1 i 0%nat false (lookup_singleton _ _)) as [Hb _]. rewrite <- Hun in Hb.
    assert (Ho : open_table t !! i = Some true) by (apply (ow_open _ _ _ _ (sr_own _ _ _ _ _ _ _ HI)); eexists; split; [exact Hb|]; generalize k; by intros []).
    apply open_lookup in Ho as (pos & e & Hj). destruct (sr_at _ _ _ _ _ _ _ HI i pos e Hj) as [Hb' _]. rewrite Hb in Hb'.
    assert (pos = 0%nat /\ e = false) as [-> ->] by (revert Hb'; generalize k; intros []; cbn; intros [= H1 H2]; split; [lia|by destruct e|lia|by destruct e]).
    by apply (src_deliver c t s2 i 0%nat false).
Qed.
End Seekable.

(** ** Streaming Readers *)
Section Streaming.
Context {V : Type} (U : uenv V) (fuel : nat) (r : rid) (gp : V -> nat) (d : bytes) (D : Z).
Notation E := (wenv U).
Notation gw := (fun w : wst V => gp (v_v w)).
Notation vR := (fun v v' : V => gp v' = gp v).
Hypothesis Hst : streams (u_env U) r gp d EOF.
Hypothesis Hcalm : calm U vR.
Hypothesis Hgo : go_uenv U.
Context (Q : Prop -> state V -> nat -> bytes -> Prop).
Hypothesis HQ : enough_for U fuel Q.
Notation sd := (streamed r gw d EOF).
Lemma gR_refl : Reflexive vR. Proof. by intros v. Qed.
Lemma gR_trans : Transitive vR. Proof. intros v1 v2 v3. congruence. Qed.
Lemma stream_world c t (h : heap (wst V)) w : stream_inv r c D t h -> stream_inv r c D t (heap_w h w).
Proof. intros [H1 H2 H3 H4 H5 H6]. constructor; try done. destruct H1 as [W1 W2 W3 W4 W5 W6 W7]. constructor; try done. by destruct W1. Qed.
Lemma streamed_world (h : heap (wst V)) w : sd h -> vR (v_v (h_w h)) (v_v w) -> sd (heap_w h w).
Proof. intros H Hv. unfold streamed in *. cbn. by rewrite Hv. Qed.
Lemma stream_facts c t h : stream_inv r c D t h -> sd h -> let L := calls_on r (h_log h) in
  (exists x, cut D d = stream L ++ x) /\ Forall (fun ev => ~ lies ev) L /\ (forall e', terminal D L = Some e' -> stream L = cut D d /\ e' = EOF).
Proof.
  intros [_ _ _ _ Hpol Hle] Hsd L.
  assert (Hmod : Forall modest (calls_on r (h_log h))).
  { apply Forall_forall. intros ev Hin. apply elem_of_list_split in Hin as (X1 & X2 & Hin). destruct (Hpol X1 ev X2 Hin) as [_ Hev]. by destruct ev. }
  destruct (Hsd Hmod) as (S1 & S2 & S3 & S4). fold L in S1, S3, S4, Hle.
  assert (Hlen : length (stream L) = gw (h_w h)) by (rewrite S1, take_length; lia).
  split; [|split; [done|]].
  - unfold cut. rewrite S1. destruct (0 <=? D) eqn:HD0.
    + assert (HD0' : 0 <= D) by lia. specialize (Hle HD0'). unfold zlen in Hle. assert (Hg : (gw (h_w h) <= Z.to_nat D)%nat) by lia.
      exists (drop (gw (h_w h)) (take (Z.to_nat D) d)). rewrite <- (take_drop (gw (h_w h)) (take (Z.to_nat D) d)) at 1. f_equal. rewrite take_take. f_equal. lia.
    + exists (drop (gw (h_w h)) d). by rewrite take_drop.
  - intros e' Hte. unfold terminal in Hte. unfold cut. destruct (first_error L) as [e0|] eqn:Hfe.
    + injection Hte as <-. destruct (S4 _ eq_refl) as [-> Hg]. split; [|done]. rewrite S1. rewrite Hg, take_ge by lia.
      assert (HDd : 0 <= D -> zlen d <= D) by (intros HD0; specialize (Hle HD0); unfold zlen in *; lia).
      destruct (0 <=? D) eqn:HD0; [|done]. rewrite take_ge; [done|]. unfold zlen in HDd. lia.
    + destruct (_ && _) eqn:Hx; [|done]. injection Hte as <-. split; [|done]. replace (0 <=? D) with true by lia. unfold zlen in *.
      rewrite S1. f_equal. lia.
Qed.
Definition flow_inv c (T : gmap nat bytes) (h : heap (wst V)) : Prop :=
  exists t, stream_inv r c D t h /\ sd h /\ forall i R, T !! i = Some R -> exists pos e, t !! i = Some (At pos e) /\ R = if (e : bool) then [] else drop pos (cut D d).
Lemma exec_streamed h cmd h' o : exec E fuel h cmd = (h', o) -> sd h -> sd h'.
Proof. unfold exec. apply run_streamed. by apply streams_w. Qed.
Lemma stream_flow c : flow U fuel vR True false (flow_inv c).
Proof.
  pose proof (go_wenv U Hgo) as Hge. constructor; [exact (proj2 (proj2 Hgo))|..].
  - intros T h i R (t & HI & _ & HT) Hi. destruct (HT i R Hi) as (pos & e & Ht & ->). eexists. split; [exact (si_at _ _ _ _ _ HI _ _ _ Ht)|done].
  - intros T h w (t & HI & Hs & HT) Hv. exists t. split; [by apply stream_world|]. split; [by apply streamed_world|done].
  - intros T h i R p h' o (t & HI & Hs & HT) Hi Hp Hex Hf. destruct (HT i R Hi) as (pos & e & Ht & HR).
    destruct (stream_step E fuel r c D t h (Call i (Read p)) h' o Hge HI Hp ltac:(by intros [|[n ?]]) Hf Hex) as [HI' Hcall].
    destruct (Hcall i (Read p) pos e eq_refl Ht) as (evs & HL & Hcm & Ha). pose proof (exec_streamed _ _ _ _ Hex Hs) as Hs'.
    destruct (stream_facts _ _ _ HI' Hs') as ((x & Hx) & Hnl & Hte). set (L := calls_on r (h_log h')) in *.
    destruct o as [y|ex|]; [|exfalso|by left].
    2: { destruct Ha as [(ev & Hin & Hl) _]. rewrite Forall_forall in Hnl. apply (Hnl ev); [|done]. rewrite HL. set_solver. }
    right. cbn [stream_answer] in Ha. destruct Ha as (err & -> & Herr). fold L in Herr.
    destruct (inv_ended r c D t h i pos e HI Ht) as [Hpos Hend].
    assert (HposL : (pos <= length (stream L))%nat) by (rewrite HL, stream_app, app_length; lia).
    fold L. set (n := Nat.min (length p) (length (stream L) - pos)) in *.
    assert (Hfill : take n (filled (stream L) pos n p) = take n (drop pos (stream L))).
    { unfold filled. rewrite take_app_le by (rewrite take_length, drop_length; lia). by rewrite take_take, Nat.min_id. }
    assert (Hdrop : drop pos (cut D d) = drop pos (stream L) ++ x) by (rewrite Hx; by apply drop_app_le).
    destruct (e || (length (stream L) <? pos + length p)%nat) eqn:Hc.
    + destruct Herr as [[e' He'] Her]. subst err. destruct (Hte e' (eq_sym Her)) as [Hcut ->]. exists n, (filled (stream L) pos n p), (Some EOF), [].
      split; [done|]. split; [lia|].
      assert (Hn : n = (length (stream L) - pos)%nat).
      { destruct e; [|cbn [orb] in Hc; lia]. destruct (Hend eq_refl) as [Ht' Hpe].
        assert (Hsame : stream L = stream (calls_on r (h_log h))).
        { unfold calls_made in Hcm. rewrite HL, Hcm, app_nil_r. done. }
        apply (f_equal length) in Hsame. unfold n. lia. }
      split; [|split; [|by right]].
      * rewrite Hfill, app_nil_r, HR, <- Hcut, Hn. rewrite take_ge by (rewrite drop_length; lia). destruct e; [|done].
        destruct (Hend eq_refl) as [_ Hpe]. symmetry. apply nil_length_inv. rewrite drop_length.
        assert (Hsame : stream L = stream (calls_on r (h_log h))) by (unfold calls_made in Hcm; rewrite HL, Hcm, app_nil_r; done).
        apply (f_equal length) in Hsame. lia.
      * eexists. split; [exact HI'|]. split; [done|]. cbn [follow]. rewrite Ht. cbn. intros j R' Hj. destruct (decide (i = j)) as [<-|Hne].
        -- rewrite lookup_insert in Hj. injection Hj as <-. rewrite lookup_insert. eauto.
        -- rewrite lookup_insert_ne in Hj by done. rewrite lookup_insert_ne by done. by apply HT.
    + subst err. destruct e; [done|]. cbn [orb] in Hc. assert (Hn : n = length p) by lia.
      exists n, (filled (stream L) pos n p), None, (drop (pos + n) (cut D d)). split; [done|]. split; [lia|]. split; [|split; [|by left]].
      * rewrite Hfill, HR, <- drop_drop. rewrite Hdrop. rewrite <- (take_drop n (drop pos (stream L) ++ x)) at 1. f_equal. apply take_app_le. rewrite drop_length. lia.
      * eexists. split; [exact HI'|]. split; [done|]. cbn [follow]. rewrite Ht. cbn. intros j R' Hj. destruct (decide (i = j)) as [<-|Hne].
        -- rewrite lookup_insert in Hj. injection Hj as <-. rewrite lookup_insert. rewrite Nat2Z.id. eauto.
        -- rewrite lookup_insert_ne in Hj by done. rewrite lookup_insert_ne by done. by apply HT.
  - done.
  - intros T h i R h' o (t & HI & Hs & HT) Hi Hex Hf. destruct (HT i R Hi) as (pos & e & Ht & HR).
    destruct (stream_step E fuel r c D t h (Call i Close) h' o Hge HI Logic.I ltac:(by intros [|[n ?]]) Hf Hex) as [HI' Hcall].
    destruct (Hcall i Close pos e eq_refl Ht) as (evs & HL & Hcm & Ha). pose proof (exec_streamed _ _ _ _ Hex Hs) as Hs'.
    destruct o as [y|ex|]; [|by destruct Ha as [_ [? ?]]|by destruct Ha]. destruct Ha as [err ->]. exists err. split; [done|].
    eexists. split; [exact HI'|]. split; [done|]. cbn [follow]. rewrite Ht. intros j R' Hj. destruct (decide (i = j)) as [<-|Hne]; [by rewrite lookup_delete in Hj|].
    rewrite lookup_delete_ne in Hj by done. rewrite lookup_insert_ne by done. by apply HT.
  - intros T h i R h' o (t & HI & Hs & HT) Hi Hex Hf. destruct (HT i R Hi) as (pos & e & Ht & HR).
    destruct (stream_step E fuel r c D t h (Call i Copy) h' o Hge HI Logic.I ltac:(by intros [|[n ?]]) Hf Hex) as [HI' Hcall].
    destruct (Hcall i Copy pos e eq_refl Ht) as (evs & HL & Hcm & Ha). pose proof (exec_streamed _ _ _ _ Hex Hs) as Hs'.
    destruct o as [y|ex|]; [|by destruct Ha as [_ [? ?]]|by destruct Ha]. destruct Ha as [j ->]. exists j. split; [done|].
    assert (j = length (h_b h)) as ->.
    { pose proof (si_at _ _ _ _ _ HI _ _ _ Ht) as Hb. pose proof (ow_wf _ _ _ _ (si_own _ _ _ _ _ HI)) as Hwf.
      destruct (bf_open_wf h i _ Hwf Hb eq_refl) as (c' & cm' & r' & m & Ho). unfold exec in Hex. cbn [cmd_prog] in Hex. rewrite Hb in Hex.
      cbn [method at_offset] in Hex. rewrite run_rbody, (run_bf_Copy E h i _ c' cm' r' m Hwf Ho) in Hex. by injection Hex as _ <-. }
    pose proof (own_fresh _ _ _ _ (si_own _ _ _ _ _ HI)) as Hfr. unfold open_table in Hfr. rewrite lookup_fmap in Hfr.
    assert (Hnone : t !! length (h_b h) = None) by (by destruct (t !! length (h_b h))). split.
    + destruct (T !! length (h_b h)) as [R'|] eqn:HTj; [|done]. destruct (HT _ _ HTj) as (? & ? & ? & _). congruence.
    + eexists. split; [exact HI'|]. split; [done|]. cbn [follow]. rewrite Ht. intros j R' Hj. destruct (decide (length (h_b h) = j)) as [<-|Hne].
      * rewrite lookup_insert in Hj. injection Hj as <-. rewrite lookup_insert. eauto.
      * rewrite lookup_insert_ne in Hj by done. rewrite lookup_insert_ne by done. by apply HT.
Qed.

Lemma stream_made v s1 i cs s2 os : gp v = 0%nat -> wrapped_in U fuel r v s1 i cs s2 os -> announced U fuel s1 i D ->
  (cp_readerat (ev_caps (u_env U) r) || cp_seeker (ev_caps (u_env U) r)) && (0 <=? D) = false ->
  (exists c, stream_inv r c D {[ i := At 0 false ]} (s_h s1) /\ sd (s_h s1)) /\ wgood U (world s1).
Proof.
  intros H0 Hw Hann Hkind. apply (wrapped_new U fuel vR r sd (fun h => exists c, stream_inv r c D {[ i := At 0 false ]} h /\ sd h) v s1 i cs s2 os Hcalm gR_refl gR_trans Hw).
  - intros h Hl Hv. unfold streamed. rewrite Hl, Hv, H0. cbn. intros _. rewrite take_0. split; [done|]. split; [lia|]. split; [constructor|done].
  - intros h cmd h' o Hs _ _ _ Hex _. by eapply exec_streamed.
  - intros h w. apply streamed_world.
  - intros h new Hu Hs Hgn Hwn Hf1 Hex. exists (length (h_c h)). split; [|by eapply exec_streamed].
    apply (stream_new E fuel r h new (s_h s1) i D (go_wenv U Hgo) Hu Hgn Hwn Hf1 Hex). split; [by apply announced_heap|done].
Qed.
Lemma stream_deliver c t s j pos e : stream_inv r c D t (s_h s) -> sd (s_h s) -> t !! j = Some (At pos e) ->
  wgood U (world s) -> Q True s j (if e then [] else drop pos (cut D d)).
Proof.
  intros HI Hs Hj Hcaps. apply (HQ vR True false _ (stream_flow c) Hcalm gR_refl gR_trans) with (T := {[ j := if e then [] else drop pos (cut D d) ]}); [|apply lookup_singleton|by right|done].
  exists t. split; [done|]. split; [done|]. intros i' R Hi'. apply lookup_singleton_Some in Hi' as [<- <-]. eauto.
Qed.
Lemma stream_kept v s1 i cs s2 os c : wrapped_in U fuel r v s1 i cs s2 os -> stream_inv r c D {[ i := At 0 false ]} (s_h s1) -> sd (s_h s1) -> wgood U (world s1) ->
  (exists t, stream_inv r c D t (s_h s2) /\ sd (s_h s2)) /\ wgood U (world s2).
Proof.
  intros Hw HI1 Hs1 Hwi.
  apply (wrapped_inv U fuel vR r (fun h => exists t, stream_inv r c D t h /\ sd h) v s1 i cs s2 os Hcalm gR_refl gR_trans Hw); [eauto|done|..].
  - intros h cmd h' o (t & HI & Hs) Hgc Hnw Hex Hfe. destruct (stream_step E fuel r c D t h cmd h' o (go_wenv U Hgo) HI Hgc Hnw Hfe Hex) as [HI' _].
    eexists. split; [exact HI'|]. by eapply exec_streamed.
  - intros h w (t & HI & Hs) Hv. exists t. split; [by apply stream_world|by apply streamed_world].
Qed.
Theorem streaming_body v s1 i cs s2 os j :
  gp v = 0%nat -> wrapped_in U fuel r v s1 i cs s2 os -> announced U fuel s1 i D ->
  (cp_readerat (ev_caps (u_env U) r) || cp_seeker (ev_caps (u_env U) r)) && (0 <=? D) = false -> holds U fuel s2 j r ->
  exists P R, cut D d = P ++ R /\ Q True s2 j R.
Proof.
  intros H0 Hw Hann Hkind Hh. destruct (stream_made v s1 i cs s2 os H0 Hw Hann Hkind) as [(c & HI1 & Hs1) Hwi].
  destruct (stream_kept v s1 i cs s2 os c Hw HI1 Hs1 Hwi) as [(t & HI & Hs) Hcaps].
  pose proof (holds_refers U fuel r c _ s2 j (si_own _ _ _ _ _ HI) Hh) as Ho. apply open_lookup in Ho as (pos & e & Hj).
  exists (if e then cut D d else take pos (cut D d)), (if e then [] else drop pos (cut D d)). split; [destruct e; [by rewrite app_nil_r|by rewrite take_drop]|].
  by eapply stream_deliver.
Qed.
Theorem streaming_fresh v s1 i cs s2 os :
  gp v = 0%nat -> wrapped_in U fuel r v s1 i cs s2 os -> announced U fuel s1 i D ->
  (cp_readerat (ev_caps (u_env U) r) || cp_seeker (ev_caps (u_env U) r)) && (0 <=? D) = false -> h_b (s_h s2) !! i = h_b (s_h s1) !! i ->
  Q True s2 i (cut D d).
Proof.
  intros H0 Hw Hann Hkind Hun. destruct (stream_made v s1 i cs s2 os H0 Hw Hann Hkind) as [(c & HI1 & Hs1) Hwi].
  destruct (stream_kept v s1 i cs s2 os c Hw HI1 Hs1 Hwi) as [(t & HI & Hs) Hcaps].
  pose proof (si_at _ _ _ _ _ HI1 i 0%nat false (lookup_singleton _ _)) as Hb. rewrite <- Hun in Hb.
  assert (Ho : open_table t !! i = Some true) by (apply (ow_open _ _ _ _ (si_own _ _ _ _ _ HI)); eexists; split; [exact Hb|done]).
  apply open_lookup in Ho as (pos & e & Hj). pose proof (si_at _ _ _ _ _ HI i pos e Hj) as Hb'. rewrite Hb in Hb'.
  assert (pos = 0%nat /\ e = false) as [-> ->] by (injection Hb' as H1 H2; split; [lia|done]).
  by apply (stream_deliver c t s2 i 0%nat false).
Qed.
End Streaming.

(** ** Empty Bodies *)
Section Empty.
Context {V : Type} (U : uenv V) (fuel : nat).
Implicit Types s : state V.
Notation E := (wenv U).
Lemma empty_writes (h : heap (wst V)) i b k : h_b h !! i = Some (BEmpty b) -> em_closed b = false -> exec E fuel h (Call i (WriteTo k)) = (h, ORet (RWriteTo 0 (Some EOF))).
Proof. intros Hi Hcl. unfold exec, cmd_prog. rewrite Hi. cbn. rewrite Hi. cbn. by rewrite Hcl. Qed.
Lemma empty_closes (h : heap (wst V)) i b : h_b h !! i = Some (BEmpty b) -> em_closed b = false ->
  exists h', exec E fuel h (Call i Close) = (h', ORet (RErr None)) /\ h_w h' = h_w h.
Proof. intros Hi Hcl. unfold exec, cmd_prog. rewrite Hi. cbn. rewrite Hi. cbn. rewrite Hcl. cbn. rewrite Hi. cbn. eauto. Qed.
Theorem empty_body s i b r x k by_ u h got : runs_to U fuel s -> h_b (s_h s) !! i = Some (BEmpty b) -> em_closed b = false ->
  s_rps s !! r = Some x -> rp_body x = Some i -> target s k = Some (by_, u) -> ready s k (rp_code x) ->
  accepting U u got -> (forall v, u_map U v u = h) -> is_Some (hview s (rp_hdrs x)) -> is_Some (view s h) ->
  exists s', texec U fuel (TDo (RServe r k)) s = (s', ORet (YErr (Some EOF))) /\ got (v_v (world s')) = got (v_v (world s)).
Proof.
  intros Hrun Hi Hcl Hx Hb Ht Hr Hac Hmap HX [Y HY]. destruct (runs_wf U fuel s Hrun) as [_ Hgood]. pose proof (wgood_caps U s Hgood) as Hcaps.
  assert (Hcalm : calm U (fun _ _ => True)) by (by constructor).
  enough (H : exists s', rp_Serve U fuel x k s = (s', ORet (Some EOF)) /\ got (v_v (world s')) = got (v_v (world s))).
  { destruct H as (s' & H & Hg). exists s'. split; [|done]. rewrite (texec_serve U fuel s r x k Hx). unfold ybind. by rewrite H. }
  destruct (serve_start U fuel (fun _ _ => True) Hcalm ltac:(done) ltac:(done) u got Hac k s x by_ Ht HX) as (s1 & (Ho & Hg1 & Hv1) & Hs1). rewrite Hs1.
  assert (Hobj : v_objs (world s1) = v_objs (world s)) by (destruct Ho as (w & -> & Hw); exact Hw).
  assert (Hi1 : h_b (s_h s1) !! i = Some (BEmpty b)) by (destruct Ho as (w & -> & Hw); exact Hi).
  assert (HX1 : hview s1 (rp_hdrs x) = hview s (rp_hdrs x)) by (destruct Ho as (w & -> & Hw); done).
  assert (HY1 : view s1 h = Some Y) by (destruct Ho as (w & -> & Hw); exact HY).
  assert (Ht1 : target s1 k = Some (by_, u)) by (by rewrite (ow_target s)).
  unfold serve_rest. unfold ybind at 1. assert (Hh : any_Header U k s1 = (s1, ORet h)).
  { unfold any_Header, target in *. fold (world s1). destruct (v_objs (world s1) !! k) as [[]|]; try done; injection Ht1 as <- <-; by rewrite Hmap. }
  rewrite Hh. unfold ybind at 1.
  assert (Hm : exists hdrs, map_or_nil (rp_hdrs x) s1 = (s1, ORet hdrs)).
  { rewrite <- HX1 in HX. destruct HX as [X HX]. unfold map_or_nil, hview in *. destruct (rp_hdrs x) as [m|]; [|by exists ∅].
    unfold view in HX. unfold the_map. destruct (s_maps s1 !! m) as [hdrs|]; [|done]. by exists hdrs. }
  destruct Hm as (hdrs & Hm). rewrite Hm.
  destruct (copy_to_view s1 h hdrs Y HY1) as (maps' & Hc & _). unfold ybind at 1. rewrite Hc.
  set (s2 := put_maps s1 maps') in *. unfold ybind at 1.
  destruct (header_ok U (fun _ _ => True) Hcalm u got Hac k s2 by_ (rp_code x)) as (w & Hw & Hsk & _); [exact Ht1| |intros y; change (world s2) with (world s1); rewrite Hobj; apply Hcaps|].
  { unfold ready in *. change (world s2) with (world s1). by rewrite Hobj. }
  rewrite Hw. set (s3 := put_h s2 _) in *. rewrite Hb. assert (Hi3 : h_b (s_h s3) !! i = Some (BEmpty b)) by exact Hi1.
  assert (Hg3 : got (v_v (world s3)) = got (v_v (world s))).
  { rewrite <- Hg1. destruct Hsk as [_ Hg]. change (v_v (world s3)) with (v_v w). rewrite Hg. done. }
  assert (Hio : io_Copy U fuel k (Some i) s3 = (s3, ORet (0, Some EOF))).
  { unfold io_Copy. unfold ybind at 1. unfold lookup_b. rewrite Hi3. cbn [is_WriterTo]. unfold write_to. unfold ybind at 1.
    rewrite body_call_some, uexec_safe, (empty_writes (s_h s3) i b k Hi3 Hcl) by exact (proj2 (proj2 (proj1 Hrun))). by destruct s3. }
  destruct (empty_closes (s_h s3) i b Hi3 Hcl) as (h' & Hcx & Hw').
  exists (put_h s3 h'). unfold ybind at 1. rewrite Hio. unfold ybind at 1. rewrite body_call_some, uexec_safe, Hcx by exact (proj2 (proj2 (proj1 Hrun))). split; [done|]. rewrite <- Hg3. unfold world. cbn. by rewrite Hw'.
Qed.
End Empty.

(** ** As the property file states them *)
Section Final.
Context {V : Type} (U : uenv V) (fuel : nat) (Q : Prop -> state V -> nat -> bytes -> Prop).
Hypothesis HQ : enough_for U fuel Q.
Section At.
Context (r : rid) (live : V -> Prop) (d : bytes) (early : bool).
Lemma nat_length (D : Z) : 0 <= D <= zlen d -> exists n, D = Z.of_nat n /\ (n <= length d)%nat /\ Z.to_nat D = n.
Proof. unfold zlen. intros H. exists (Z.to_nat D). lia. Qed.
Theorem at_any : serves_at (u_env U) r live d early -> cp_readerat (ev_caps (u_env U) r) = true -> calm U (fun v v' => live v -> live v') ->
  forall v s1 i cs s2 os (D : Z) j, live v -> wrapped_in U fuel r v s1 i cs s2 os -> announced U fuel s1 i D -> 0 <= D <= zlen d -> holds U fuel s2 j r ->
  exists P R, take (Z.to_nat D) d = P ++ R /\ Q False s2 j R.
Proof.
  intros Hs Hc Hcalm v s1 i cs s2 os D j Hl Hw Hann HD Hh. apply nat_length in HD as (n & -> & Hn & ->).
  by apply (seekable U fuel KAt r live d early n Hs Hcalm (proj1 Hw) Q HQ Hn v s1 i cs s2 os j).
Qed.
Theorem at_fresh : serves_at (u_env U) r live d early -> cp_readerat (ev_caps (u_env U) r) = true -> calm U (fun v v' => live v -> live v') ->
  forall v s1 i cs s2 os (D : Z), live v -> wrapped_in U fuel r v s1 i cs s2 os -> announced U fuel s1 i D -> 0 <= D <= zlen d ->
  h_b (s_h s2) !! i = h_b (s_h s1) !! i -> Q False s2 i (take (Z.to_nat D) d).
Proof.
  intros Hs Hc Hcalm v s1 i cs s2 os D Hl Hw Hann HD Hh. apply nat_length in HD as (n & -> & Hn & ->).
  by apply (seekable_fresh U fuel KAt r live d early n Hs Hcalm (proj1 Hw) Q HQ Hn v s1 i cs s2 os).
Qed.
Theorem seek_any : serves_seek (u_env U) r live d early -> cp_readerat (ev_caps (u_env U) r) = false -> cp_seeker (ev_caps (u_env U) r) = true ->
  calm U (fun v v' => live v -> live v') ->
  forall v s1 i cs s2 os (D : Z) j, live v -> wrapped_in U fuel r v s1 i cs s2 os -> announced U fuel s1 i D -> 0 <= D <= zlen d -> holds U fuel s2 j r ->
  exists P R, take (Z.to_nat D) d = P ++ R /\ Q False s2 j R.
Proof.
  intros Hs Hc1 Hc2 Hcalm v s1 i cs s2 os D j Hl Hw Hann HD Hh. apply nat_length in HD as (n & -> & Hn & ->).
  by apply (seekable U fuel KSeek r live d early n Hs Hcalm (proj1 Hw) Q HQ Hn v s1 i cs s2 os j).
Qed.
Theorem seek_fresh : serves_seek (u_env U) r live d early -> cp_readerat (ev_caps (u_env U) r) = false -> cp_seeker (ev_caps (u_env U) r) = true ->
  calm U (fun v v' => live v -> live v') ->
  forall v s1 i cs s2 os (D : Z), live v -> wrapped_in U fuel r v s1 i cs s2 os -> announced U fuel s1 i D -> 0 <= D <= zlen d ->
  h_b (s_h s2) !! i = h_b (s_h s1) !! i -> Q False s2 i (take (Z.to_nat D) d).
Proof.
  intros Hs Hc1 Hc2 Hcalm v s1 i cs s2 os D Hl Hw Hann HD Hh. apply nat_length in HD as (n & -> & Hn & ->).
  by apply (seekable_fresh U fuel KSeek r live d early n Hs Hcalm (proj1 Hw) Q HQ Hn v s1 i cs s2 os).
Qed.
End At.
Theorem stream_any (r : rid) (gp : V -> nat) (d : bytes) : streams (u_env U) r gp d EOF -> calm U (fun v v' => gp v' = gp v) ->
  forall v s1 i cs s2 os (D : Z) j, gp v = 0%nat -> wrapped_in U fuel r v s1 i cs s2 os -> announced U fuel s1 i D ->
  (cp_readerat (ev_caps (u_env U) r) || cp_seeker (ev_caps (u_env U) r)) && (0 <=? D) = false -> holds U fuel s2 j r ->
  exists P R, cut D d = P ++ R /\ Q True s2 j R.
Proof. intros Hs Hcalm v s1 i cs s2 os D j H0 Hw Hann Hk Hh. by apply (streaming_body U fuel r gp d D Hs Hcalm (proj1 Hw) Q HQ v s1 i cs s2 os j). Qed.
Theorem stream_fresh (r : rid) (gp : V -> nat) (d : bytes) : streams (u_env U) r gp d EOF -> calm U (fun v v' => gp v' = gp v) ->
  forall v s1 i cs s2 os (D : Z), gp v = 0%nat -> wrapped_in U fuel r v s1 i cs s2 os -> announced U fuel s1 i D ->
  (cp_readerat (ev_caps (u_env U) r) || cp_seeker (ev_caps (u_env U) r)) && (0 <=? D) = false ->
  h_b (s_h s2) !! i = h_b (s_h s1) !! i -> Q True s2 i (cut D d).
Proof. intros Hs Hcalm v s1 i cs s2 os D H0 Hw Hann Hk Hh. by apply (streaming_fresh U fuel r gp d D Hs Hcalm (proj1 Hw) Q HQ v s1 i cs s2 os). Qed.
End Final.
