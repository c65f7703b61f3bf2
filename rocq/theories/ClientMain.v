(** * What a client gets is a function of the calls to the Builder *)
From stdpp Require Import gmap.
From Coq Require Import ZifyBool.
From Verif Require Import ClientSpec RespFacts PlainProofs ViewFacts HdrFacts BuilderMain ValueMain Wf DeliverMain Reply Template.

Section Client.
Context {V : Type} (U : uenv V) (fuel n0 : nat).
Hypothesis HU : clients_among U n0.
Implicit Types s : state V.

Lemma within_mindfully s : mindfully_within U fuel n0 s -> mindfully U fuel n0 s.
Proof. intros (v & n & maps & arrs & cs & os & H1 & H2 & H3 & _ & H4 & H5). by exists v, n, maps, arrs, cs, os. Qed.
Lemma within_reached s : mindfully_within U fuel n0 s -> reached U fuel s.
Proof. intros (v & n & maps & arrs & cs & os & _ & H1 & _ & H2 & H3 & H4). by exists v, n, maps, arrs, cs, os. Qed.
Lemma within_more s cs s' os : mindfully_within U fuel n0 s -> Forall (each_in (mindful n0)) cs -> Forall (each_in (go_rcmd U)) cs ->
  thistory U fuel s cs = (s', os) -> OSpin ∉ os -> mindfully_within U fuel n0 s'.
Proof.
  intros (v & n & maps & arrs & cs0 & os0 & Hl & Hs & Hcs0 & Hg0 & H0 & N0) Hcs Hg H N. exists v, n, maps, arrs, (cs0 ++ cs), (os0 ++ os).
  split; [done|]. split; [done|]. split; [by apply Forall_app|]. split; [by apply Forall_app|]. rewrite (hist_app U fuel _ _ cs _ _ H0 N0), H. split; [done|]. rewrite elem_of_app. tauto.
Qed.
Lemma within_step s c s' x : mindfully_within U fuel n0 s -> mindful n0 c -> go_rcmd U c -> texec U fuel (TDo c) s = (s', ORet x) -> mindfully_within U fuel n0 s'.
Proof.
  intros Hs Hm Hg H. eapply (within_more s [TDo c] s' [ORet x]); [done|by apply Forall_singleton|by apply Forall_singleton|by cbn [thistory]; rewrite H|]. by rewrite elem_of_list_singleton.
Qed.
Lemma response_owned s r y : mindfully U fuel n0 s -> s_rps s !! r = Some y -> forall v u, rp_hdrs y <> Some (u_map U v u).
Proof.
  intros Hs Hy v u E. pose proof (proj1 (plainly_good U fuel n0 HU s Hs)) as HT. destruct (t_rp _ _ HT r y _ Hy E) as [L _]. specialize (HU v u). lia.
Qed.

(** ** Any body *)
Theorem client_gets s b w s2 r cs s3 os busy P R k u h got isHEAD Y s' o :
  mindfully_within U fuel n0 s -> builder_is s b w -> texec U fuel (TDo (RBuild b)) s = (s2, ORet (YHandle (Some r))) ->
  Forall (each_in (mindful n0)) cs -> Forall (each_in (go_rcmd U)) cs -> thistory U fuel s2 cs = (s3, os) -> OSpin ∉ os ->
  (forall i, v_body w = Some i -> template U fuel busy P s3 r i R) ->
  client U s3 k u h got Y -> texec U fuel (TServe (from_copy r) (Some k) isHEAD) s3 = (s', o) -> feasible (s_h s') ->
  exists i n, v_body w = Some i /\ exec (wenv U) fuel (s_h s) (Call i BytesRemaining) = (s_h s2, ORet (RInt n)) /\
    answered fuel busy s3 k u h got isHEAD Y (built n w) R s' o.
Proof.
  intros Hs Hb H2 Hm Hg H3 N3 Ht (C1 & C2 & C3 & C4 & C5) H F.
  destruct (builds U fuel n0 s b w s2 r (within_mindfully s Hs) Hb H2) as (i & n & Hi & Hn & _ & Hr & _). exists i, n. split; [done|]. split; [done|].
  pose proof (within_step s (RBuild b) s2 _ Hs I I H2) as Hs2. pose proof (within_more s2 cs s3 os Hs2 Hm Hg H3 N3) as Hs3.
  destruct (responses_fixed U fuel n0 HU s2 r _ cs s3 os (within_mindfully s2 Hs2) Hr Hm H3) as (x & Hx & HX & E1 & E2 & E3).
  assert (Hxi : rp_body x = Some i) by (rewrite E2; exact Hi).
  assert (N : @OSpin reply ∉ []) by apply not_elem_of_nil.
  pose proof (Ht i Hi x _ [] s3 [] k u h got isHEAD Y s' o Hx Hxi HX (response_owned s3 r x (within_mindfully s3 Hs3) Hx) (Forall_nil_2 _) (Forall_nil_2 _) (Forall_nil_2 _) eq_refl N C1 C2 C3 C4 C5 H F) as G.
  unfold answered. by rewrite E1 in G.
Qed.

(** ** Bytes in memory *)
Theorem client_memory s b w i d s2 r cs s3 os k u h got isHEAD Y s' o : go_uenv U ->
  mindfully_within U fuel n0 s -> feasible (s_h s) -> builder_is s b w -> v_body w = Some i ->
  h_b (s_h s) !! i = Some (BBytes d) -> by_closed d = false -> (by_eof d = true -> by_offset d = zlen (by_data d)) ->
  texec U fuel (TDo (RBuild b)) s = (s2, ORet (YHandle (Some r))) ->
  Forall (each_in (mindful n0)) cs -> Forall (each_in (go_rcmd U)) cs -> thistory U fuel s2 cs = (s3, os) -> OSpin ∉ os ->
  h_b (s_h s3) !! i = Some (BBytes d) ->
  client U s3 k u h got Y -> texec U fuel (TServe (from_copy r) (Some k) isHEAD) s3 = (s', o) -> feasible (s_h s') ->
  answered fuel False s3 k u h got isHEAD Y (built (zlen (left_in d)) w) (left_in d) s' o.
Proof.
  intros Hgu Hs Hf Hb Hi Hd Hcl He H2 Hm Hg H3 N3 Hd3 Hc H F.
  pose proof (within_step s (RBuild b) s2 _ Hs I I H2) as Hs2. pose proof (within_more s2 cs s3 os Hs2 Hm Hg H3 N3) as Hs3.
  destruct (builds U fuel n0 s b w s2 r (within_mindfully s Hs) Hb H2) as (_ & n2 & _ & _ & _ & Hr & _).
  destruct (responses_fixed U fuel n0 HU s2 r _ cs s3 os (within_mindfully s2 Hs2) Hr Hm H3) as (x & Hx & HX & E1 & E2 & E3).
  destruct (client_gets s b w s2 r cs s3 os False (fun _ => True) (left_in d) k u h got isHEAD Y s' o) as (i' & n & Hi' & Hn & G); try done.
  { intros j Hj. rewrite Hi in Hj. injection Hj as <-. apply (memory_template U fuel s3 r x i d); try done; [by apply within_reached|by rewrite E2|].
    by apply (response_owned s3 r x (within_mindfully s3 Hs3)). }
  enough (n = zlen (left_in d)) as <- by done. rewrite Hi in Hi'. injection Hi' as <-.
  assert (Hw : runs_to U fuel s). { split; [done|]. destruct Hs as (v & m & maps & arrs & cs0 & os0 & _ & _ & _ & G1 & G2 & _). by exists v, m, maps, arrs, cs0, os0. }
  destruct (runs_wf U fuel s Hw) as [Hwf _]. destruct (wf_b _ Hwf _ _ Hd) as [Hb1 Hb2].
  unfold exec, cmd_prog in Hn. rewrite Hd in Hn. cbn in Hn. rewrite Hd in Hn. cbn in Hn. rewrite Hcl in Hn. cbn in Hn. injection Hn as _ <-.
  unfold left_in. rewrite Hcl. cbn [orb]. destruct (by_eof d); [rewrite He by done; by rewrite Z.sub_diag|]. unfold zlen in *. rewrite drop_length. lia.
Qed.
(** From NewBuilder() on. *)
Theorem client_lifetime s s0 b cs1 s1 os1 i d s2 r cs s3 os k u h got isHEAD Y s' o : go_uenv U ->
  mindfully_within U fuel n0 s -> texec U fuel (TDo RNewBuilder) s = (s0, ORet (YHandle (Some b))) ->
  Forall (each_in (mindful n0)) cs1 -> Forall (each_in (go_rcmd U)) cs1 -> Forall (uses_simply b) cs1 -> thistory U fuel s0 cs1 = (s1, os1) -> OSpin ∉ os1 ->
  let w := foldl (called U) new_value (omap (call_on b) cs1) in
  feasible (s_h s1) -> v_body w = Some i ->
  h_b (s_h s1) !! i = Some (BBytes d) -> by_closed d = false -> (by_eof d = true -> by_offset d = zlen (by_data d)) ->
  texec U fuel (TDo (RBuild b)) s1 = (s2, ORet (YHandle (Some r))) ->
  Forall (each_in (mindful n0)) cs -> Forall (each_in (go_rcmd U)) cs -> thistory U fuel s2 cs = (s3, os) -> OSpin ∉ os ->
  h_b (s_h s3) !! i = Some (BBytes d) ->
  client U s3 k u h got Y -> texec U fuel (TServe (from_copy r) (Some k) isHEAD) s3 = (s', o) -> feasible (s_h s') ->
  answered fuel False s3 k u h got isHEAD Y (built (zlen (left_in d)) w) (left_in d) s' o.
Proof.
  intros Hgu Hs H0 Hm1 Hg1 Hu H1 N1 w. intros. pose proof (within_step s RNewBuilder s0 _ Hs I I H0) as Hs0.
  assert (B0 : builder_is s0 b new_value).
  { cbn in H0. injection H0 as <- <-. exists new_builder. cbn. rewrite lookup_app_r, Nat.sub_diag by done. done. }
  eapply (client_memory s1 b w i d s2 r cs s3 os); try done; [exact (within_more s0 cs1 s1 os1 Hs0 Hm1 Hg1 H1 N1)|].
  exact (folded U fuel n0 HU cs1 s0 b _ s1 os1 (within_mindfully s0 Hs0) B0 Hm1 Hu H1 N1).
Qed.

(** ** A Handler that builds its answer *)
Lemma legal_simple f : legal U f -> simple f.
Proof. by destruct f; try (intros [? _]). Qed.
(** Such a call returns, and changes nothing but the Builder. *)
Lemma legal_call s b w f : good n0 s -> builder_is s b w -> legal U f ->
  exists s', texec U fuel (TDo (RBuilder b f)) s = (s', ORet YUnit) /\ s_h s' = s_h s /\ s_met s' = s_met s /\
    forall m Y, (m < n0)%nat -> view s m = Some Y -> view s' m = Some Y.
Proof.
  intros Hs (x & Hx & HX & _) Hf.
  assert (Hc : forall s' x' X, changes s s' b x x' X [] -> s_h s' = s_h s /\ s_met s' = s_met s /\ forall m Y, (m < n0)%nat -> view s m = Some Y -> view s' m = Some Y).
  { intros s' x' X (_ & _ & _ & Hm & Hh & Hv). split; [rewrite Hh, app_nil_r; by destruct (s_h s)|]. split; [done|]. intros m Y Hlt HY. apply Hv; [done|]. intros E.
    destruct (t_bd _ _ (proj1 Hs) b x m Hx E). lia. }
  assert (Hset : forall x', setter f -> set_field f x = Some x' -> exists s', texec U fuel (TDo (RBuilder b f)) s = (s', ORet YUnit) /\ s_h s' = s_h s /\ s_met s' = s_met s /\
    forall m Y, (m < n0)%nat -> view s m = Some Y -> view s' m = Some Y).
  { intros x' F1 F2. destruct (setters U fuel s b x _ f x' Hx HX F1 F2) as (s' & H & C). exists s'. split; [done|]. by eapply Hc. }
  assert (Hhelp : header_helper f /\ (forall X, header_after U f X <> None) -> exists s', texec U fuel (TDo (RBuilder b f)) s = (s', ORet YUnit) /\ s_h s' = s_h s /\ s_met s' = s_met s /\
    forall m Y, (m < n0)%nat -> view s m = Some Y -> view s' m = Some Y).
  { intros [F1 F2]. destruct (header_after U f (v_header w)) as [X'|] eqn:F3; [|by destruct (F2 (v_header w))].
    destruct (header_helpers_swf U fuel s b x _ f X' (proj2 Hs) Hx HX F1) as (s' & m & H & C); [by eapply good_safe|done|]. exists s'. split; [done|]. by eapply Hc. }
  destruct f; try done; try (by apply Hhelp).
  - eapply Hset; [done|]. cbn in *. by replace ((200 <=? code) && (code <=? 999)) with true by lia.
  - destruct i; [|done]. by eapply Hset.
  - by eapply Hset.
Qed.
Lemma legal_calls fs : forall s b w, mindfully_within U fuel n0 s -> builder_is s b w -> Forall (legal U) fs ->
  exists s' , mindfully_within U fuel n0 s' /\ builder_is s' b (foldl (called U) w fs) /\ s_h s' = s_h s /\ s_met s' = s_met s /\
    (forall m Y, (m < n0)%nat -> view s m = Some Y -> view s' m = Some Y) /\
    forall rest s2 r, returns U fuel rest s' s2 r -> returns U fuel (calling b fs rest) s s2 r.
Proof.
  induction fs as [|f fs IH]; intros s b w Hs Hb Hfs. { exists s. do 4 (split; [done|]). split; [done|]. by intros. }
  apply Forall_cons in Hfs as [Hf Hfs]. pose proof (plainly_good U fuel n0 HU s (within_mindfully s Hs)) as Hg.
  destruct (legal_call s b w f Hg Hb Hf) as (s1 & H1 & Hh1 & Hm1 & Hv1).
  assert (Hs1 : mindfully_within U fuel n0 s1).
  { apply (within_step s (RBuilder b f) s1 YUnit Hs); [by destruct f; try done; destruct Hf|by destruct f; try done; destruct Hf|exact H1]. }
  pose proof (calls U fuel n0 s b w f s1 _ Hg Hb (legal_simple f Hf) H1) as Hb1.
  destruct (IH s1 b _ Hs1 Hb1 Hfs) as (s' & A1 & A2 & A3 & A4 & A5 & A6). exists s'. split; [done|]. split; [done|]. split; [congruence|]. split; [congruence|]. split; [eauto|].
  intros rest s2 r Hr. cbn [calling]. eapply rt_do; [exact H1|done|]. by apply A6.
Qed.
Lemma build_total s b x X i ob n : good n0 s -> s_bds s !! b = Some x -> hview s (bd_hdrs x) = Some X -> bd_body x = Some i ->
  h_b (s_h s) !! i = Some ob -> is_long U fuel ob n -> 0 <= n ->
  exists s', texec U fuel (TDo (RBuild b)) s = (s', ORet (YHandle (Some (length (s_rps s))))) /\ s_h s' = s_h s /\ s_met s' = s_met s /\
    forall m Y, (m < n0)%nat -> view s m = Some Y -> view s' m = Some Y.
Proof.
  intros [HT Hs] Hb HX Hi Hob Hlong Hn. cbn [texec rdo]. unfold bd_Build. unfold ybind at 1. unfold ybind at 1. unfold the_bd. rewrite Hb. rewrite Hi.
  unfold ybind at 1. unfold massert, yret at 1. unfold ybind at 1. unfold set_bd. cbv zeta. set (s1 := put_bds s _).
  assert (Hm : exists s2 m, (match bd_hdrs x with Some m => yret m | None => make_map ∅ end) s1 = (s2, ORet m) /\ view s2 m = Some X /\ swf s2 /\ s_h s2 = s_h s /\ s_rps s2 = s_rps s /\ s_met s2 = s_met s /\
    (n0 <= m)%nat /\ forall m' Y, (m' < n0)%nat -> view s m' = Some Y -> view s2 m' = Some Y).
  { destruct (bd_hdrs x) as [m|] eqn:Hh.
    - exists s1, m. repeat (split; [done|]). split; [|done]. by eapply (t_bd _ _ HT).
    - injection HX as <-. eexists _, _. split; [reflexivity|]. split. { unfold view. cbn. rewrite lookup_app_r, Nat.sub_diag by done. cbn. by rewrite fmap_empty. }
      split; [apply sound_maps_app; [done|apply sound_empty]|]. do 3 (split; [done|]). split; [apply (t_n0 _ _ HT)|]. intros m' Y Hlt HY. unfold view in *. cbn. rewrite lookup_app_l; [done|].
      pose proof (t_n0 _ _ HT). unfold mid in *. lia. }
  destruct Hm as (s2 & m & E2 & Hv2 & Hs2 & Hh2 & Hr2 & Hm2 & Hmn & Ho2). unfold ybind at 1. rewrite E2.
  destruct (fill_view s2 m X contentType "application/octet-stream" Hs2 Hv2) as (s3 & Hf3 & (Rh3 & Rb3 & Rr3 & Rm3) & Hv3 & Hs3 & Ho3).
  unfold ybind at 1. rewrite Hf3. unfold ybind at 1. unfold body_call, of_opt. unfold ybind at 1. unfold yret at 1. unfold body_cmd. rewrite Rh3, Hh2, (Hlong (s_h s) i Hob).
  unfold ybind at 1. replace (n >=? 0) with true by lia.
  assert (Hput : put_h s3 (s_h s) = s3) by (rewrite <- Hh2, <- Rh3; by destruct s3). rewrite Hput.
  destruct (fill_view s3 m _ contentLength (itoa n) Hs3 Hv3) as (s4 & Hf4 & (Rh4 & Rb4 & Rr4 & Rm4) & Hv4 & Hs4 & Ho4).
  rewrite Hf4. unfold make_rp, yret. rewrite Rr4, Rr3, Hr2. eexists. split; [reflexivity|]. split; [cbn; congruence|]. split; [cbn; congruence|].
  intros m' Y Hlt HY. assert (m' <> m) by lia. change (view (put_rps s4 _) m') with (view s4 m'). rewrite Ho4, Ho3 by done. by apply Ho2.
Qed.

Theorem client_handler s new d fs k u h got isHEAD Y s' o : go_uenv U ->
  mindfully_within U fuel n0 s -> ReplySpec.holding new d -> d <> [] -> go_cmd new -> Forall (legal U) fs ->
  client U s k u h got Y -> texec U fuel (TServe (reply_after new fs) (Some k) isHEAD) s = (s', o) -> feasible (s_h s') ->
  answered fuel False s k u h got isHEAD Y (built (zlen d) (foldl (called U) new_value (fs ++ [WithBody (Some (length (h_b (s_h s))))]))) d s' o.
Proof.
  intros Hgu Hs Hnew Hd Hgo Hfs (C1 & C2 & C3 & C4 & C5) H F. set (ob := BBytes {| by_data := d; by_offset := 0; by_eof := false; by_closed := false |}).
  set (i := length (h_b (s_h s))). set (w := foldl _ _ _).
  (* the Writer *)
  unfold target in C1. destruct (v_objs (world s) !! k) as [[|u'|]|] eqn:Hk; try done. injection C1 as ->.
  destruct (NewWriter U (Some k) isHEAD s) as [s1 ow] eqn:HN. pose proof HN as HN'. unfold NewWriter in HN'. fold (world s) in HN'. rewrite Hk in HN'. cbv zeta in HN'. injection HN' as Hs1 Eo.
  set (k' := length (v_objs (world s)) : wid) in *. subst ow.
  assert (HT1 : texec U fuel (TDo (RNewWriter (Some k) isHEAD)) s = (s1, ORet (YHandle (Some k')))) by (cbn; unfold ybind; by rewrite HN).
  pose proof (within_step s (RNewWriter (Some k) isHEAD) s1 _ Hs I I HT1) as W1.
  (* the Body *)
  assert (Hb1 : h_b (s_h s1) = h_b (s_h s)) by (by rewrite <- Hs1).
  assert (H2 : texec U fuel (TDo (RB new)) s1 = (put_h s1 {| h_b := h_b (s_h s1) ++ [ob]; h_c := h_c (s_h s1); h_w := h_w (s_h s1); h_log := h_log (s_h s1) |}, ORet (YBody (RBody i None)))).
  { cbn [texec rdo]. unfold ybind, body_cmd. rewrite (new_bytes U fuel new d Hnew Hd (s_h s1)). by rewrite Hb1. }
  set (s2 := put_h s1 _) in H2. pose proof (within_step s1 (RB new) s2 _ W1 I Hgo H2) as W2.
  (* the Builder *)
  destruct (texec U fuel (TDo RNewBuilder) s2) as [s3 o3] eqn:H3. set (b := length (s_bds s2)).
  assert (E3 : o3 = ORet (YHandle (Some b)) /\ s3 = put_bds s2 (s_bds s2 ++ [new_builder])) by (by cbn in H3; injection H3 as <- <-). destruct E3 as [-> E3].
  pose proof (within_step s2 RNewBuilder s3 _ W2 I I H3) as W3.
  assert (B3 : builder_is s3 b new_value). { exists new_builder. rewrite E3. cbn. rewrite lookup_app_r, Nat.sub_diag by done. done. }
  (* the calls *)
  destruct (legal_calls (fs ++ [WithBody (Some i)]) s3 b _ W3 B3) as (s4 & W4 & B4 & Hh4 & Hm4 & Hv4 & Hret4). { apply Forall_app. split; [done|]. by apply Forall_singleton. }
  fold w in B4. assert (Hwi : v_body w = Some i) by (unfold w; by rewrite foldl_app).
  assert (Hob4 : h_b (s_h s4) !! i = Some ob). { rewrite Hh4, E3. cbn. rewrite Hb1. unfold i. by apply list_lookup_middle. }
  pose proof B4 as (x & Hx & HX & X1 & X2 & X3).
  destruct (build_total s4 b x _ i ob (zlen d) (plainly_good U fuel n0 HU s4 (within_mindfully s4 W4)) Hx HX) as (s5 & H5 & Hh5 & Hm5 & Hv5); [congruence|done|apply long_bytes|unfold zlen; lia|].
  pose proof (within_step s4 (RBuild b) s5 _ W4 I I H5) as W5. set (r := length (s_rps s4)) in *.
  destruct (builds U fuel n0 s4 b w s5 r (within_mindfully s4 W4) B4 H5) as (i' & n & Hi' & Hn & _ & (z & Hz & HZ & Z1 & Z2 & Z3) & _).
  assert (n = zlen d) as ->. { rewrite Hwi in Hi'. injection Hi' as <-. pose proof (long_bytes U fuel d (s_h s4) i Hob4) as L. apply Hazard.uexec_ret in L. rewrite Hn in L. by injection L. }
  assert (Hret : returns U fuel (reply_after new fs) s1 s5 r).
  { eapply rt_do; [exact H2|done|]. cbn beta iota. eapply rt_do; [exact H3|done|]. cbn beta iota. apply Hret4. eapply rt_do; [exact H5|done|]. constructor. }
  assert (Hw5 : world s5 = world s1). { unfold world. rewrite Hh5, Hh4, E3. done. }
  (* what was possible *)
  assert (F5 : feasible (s_h s5)).
  { cbn in H. unfold ybind in H. assert (Hs' : (ServeHTTP U fuel (reply_after new fs) (Some k) isHEAD s).1 = s') by (destruct (ServeHTTP _ _ _ _ _ _) as [s6 [[]|e|]]; by injection H as <- _).
    revert Hs'. unfold ServeHTTP. rewrite HN, (returns_run U fuel _ _ _ _ _ Hret Hz). pose proof (f_serve U fuel Hgu z k' s5) as Hq. intros Hs'.
    destruct (rp_Serve U fuel z k' s5) as [s6 [[e|]|e|]]; cbn in Hq; (eapply f_back; [exact Hq|]).
    - eapply f_back; [apply (f_defer U fuel Hgu k' (Some (PError e)))|]. by rewrite Hs'.
    - eapply f_back; [apply (f_defer U fuel Hgu k' None)|]. by rewrite Hs'.
    - eapply f_back; [apply (f_defer U fuel Hgu k' (Some e))|]. by rewrite Hs'.
    - cbn in Hs'. by rewrite Hs'. }
  assert (Hdel : delivers U fuel False s5 i d).
  { change d with (if by_eof {| by_data := d; by_offset := 0; by_eof := false; by_closed := false |} then [] else drop (Z.to_nat 0) d).
    apply (memory U fuel (delivers U fuel) s5 i {| by_data := d; by_offset := 0; by_eof := false; by_closed := false |} (enough_delivers U fuel)); [|by rewrite Hh5|done].
    split; [done|]. destruct W5 as (v & m & maps & arrs & cs0 & os0 & _ & _ & _ & G1 & G2 & _). by exists v, m, maps, arrs, cs0, os0. }
  assert (Hlt : (h < n0)%nat). { rewrite <- (C3 (v_v (world s))). apply HU. }
  assert (Hgot : got (v_v (world s)) = got (v_v (world s5))) by (rewrite Hw5, <- Hs1; done). unfold answered. fold k'. rewrite Hgot.
  pose proof (Reply.request U fuel s k u h got (reply_after new fs) isHEAD s1 k' s5 r z i d False (v_header (built (zlen d) w)) Y s' o (plainly_reaches U fuel n0 s (within_mindfully s Hs))) as G.
  rewrite Z1 in G. apply G; try done.
  - unfold target. by rewrite Hk.
  - rewrite Z2. exact Hwi.
  - assert (Hk' : v_objs (h_w (s_h s5)) !! k' = v_objs (world s1) !! k') by (by rewrite <- Hw5). unfold reports. cbn. unfold w_do, ybind, lookup_w. rewrite Hk', <- Hs1. cbn. unfold k'. by rewrite list_lookup_middle.
  - apply Hv5; [done|]. apply Hv4; [done|]. rewrite E3. change (view s1 h = Some Y). by rewrite <- Hs1.
Qed.
End Client.
