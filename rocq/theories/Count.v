(** * The Adaptor and a response that the client did not get in full (proofs) *)
From stdpp Require Import gmap.
From Coq Require Import ZifyBool.
From Verif Require Import RespFacts HonestSpec AdaptorSpec WriterProofs AdaptorMain ReplySpec Deliver.
From Verif Require Reply Honest.

Section C.
Context {V : Type} (U : uenv V) (fuel : nat).
Implicit Types s : state V.
Notation gots got s := (got (v_v (world s))).
Lemma returns_handled k inner s s2 r s' x : returns U fuel inner s s2 r -> handled U fuel k inner s s' x -> handled U fuel k (HReturn (Some r)) s2 s' x.
Proof.
  induction 1 as [r s|c f o s s1 s2 r Hc Ho Hr IH]; intros H; [done|]. apply IH. inversion H; subst.
  match goal with H1 : texec _ _ _ s = (?a, ?b), H3 : handled _ _ _ (f ?b) _ _ _ |- _ => assert (a = s1 /\ b = o) as [-> ->] by (split; congruence); done end.
Qed.
Lemma f_defer k pv : pres fR (adaptor_defer U k pv).
Proof.
  pose proof (@f_on_writer V). pose proof (@f_lookup_wrap V). unfold adaptor_defer. cbv zeta. pres_go.
  - intros s0. rewrite mets_run. by intros ?.
  - intros s0. by intros ?.
  - intros s0. unfold outside. destruct (u_onpanic U _ _ _) as [v [e|]]; by intros ?.
Qed.
Lemma defer_got u (got : V -> bytes) k y pv s s' o : honest U u got -> (forall v b e, got (u_onpanic U v b e).1 = got v) ->
  v_objs (world s) !! k = Some (WWrap y) -> ww_next y = u -> adaptor_defer U k pv s = (s', o) -> gots got s' = gots got s.
Proof.
  intros Hho Hon Hk Hy H. unfold adaptor_defer in H. unfold ybind at 1, lookup_wrap, ybind at 1, lookup_w in H. fold (world s) in H. rewrite Hk in H. unfold yret at 1 in H. cbv zeta in H.
  unfold ybind at 1 in H. unfold on_writer in H. fold (world s) in H. rewrite (MaybeWriteHeader_run U) in H. change ((100 <=? StatusInternalServerError) && (StatusInternalServerError <=? 999)) with true in H. rewrite Hk, Hy in H.
  pose proof (ho_header _ _ _ Hho (v_v (world s)) StatusInternalServerError) as Hg.
  assert (Hrest : forall l s1 s' o, ybind (mets l) (fun _ =>
      match pv with
      | None => yret tt
      | Some e => ybind (met (MOnPanic (negb (is_go_error e)) e)) (fun _ => outside (fun v => let '(v, x) := u_onpanic U v (negb (is_go_error e)) e in (v, opt_panic x)))
      end) s1 = (s', o) -> gots got s' = gots got s1).
  { clear -Hon. intros l s1 s' o. unfold ybind at 1. rewrite mets_run. destruct pv as [e|]; [|by intros [= <- <-]].
    unfold ybind, met, outside. cbn. pose proof (Hon (v_v (h_w (s_h s1))) (negb (is_go_error e)) e) as Hx. destruct (u_onpanic U _ (negb (is_go_error e)) e) as [v [p|]]; cbn in *; intros [= <- <-]; exact Hx. }
  destruct (ww_status y =? 0).
  - cbv zeta in H. destruct (u_writeheader U (v_v (world s)) u StatusInternalServerError) as [v [e|]]; cbn [opt_panic] in H; cbn [fst] in Hg.
    + injection H as <- <-. exact Hg.
    + apply Hrest in H. rewrite H. exact Hg.
  - apply Hrest in H. rewrite H. done.
Qed.
Theorem truncated : forall s k by_ u got inner isHEAD s1 k' s2 x s' o sr r z i R all,
  treaches U fuel s -> target s k = Some (by_, u) -> honest U u got -> (forall v b e, got (u_onpanic U v b e).1 = got v) -> (forall v, (u_writeheader U v u 500).2 = None) ->
  request U fuel inner k isHEAD s s1 k' s2 x s' o -> feasible (s_h s') ->
  returns U fuel inner s1 sr r -> s_rps sr !! r = Some z -> rp_body z = Some i -> owns_up U fuel all sr i R ->
  exists X m, gots got s' = gots got sr ++ X /\ X `prefix_of` R /\ (bodiless sr k' (rp_code z) = true -> X = []) /\
    s_met s' = s_met s ++ m /\ length (requests_in m) = 1%nat /\
    (all -> bodiless sr k' (rp_code z) = false -> X = R \/ panics_in m = 1%nat /\ exists e, onpanics_in m = [e]).
Proof.
  intros s k by_ u got inner isHEAD s1 k' s2 x s' o sr r z i R all Hr Ht Hho Hon Hwh Hq Hf Hret Hz Hb Hown.
  destruct (counted U fuel s k by_ u inner isHEAD s1 k' s2 x s' o Hr Ht Hq Hwh) as (m & Hm & Hm1 & Hm2 & Hm3).
  destruct (full U fuel _ _ _ _ _ _ _ _ _ _ _ _ Hr Ht Hq) as (y & o1 & Hk & Hy & _ & _ & Hd & _).
  pose proof (defer_got u got k' y (ended x) s2 s' o1 Hho Hon Hk Hy Hd) as Hg.
  assert (Hf2 : feasible (s_h s2)) by (pose proof (f_defer k' (ended x) s2) as Hp; rewrite Hd in Hp; exact (Hp Hf)).
  destruct Hq as (_ & _ & Hn & Hh).
  pose proof (returns_handled k' inner s1 sr r s2 x Hret Hh) as Hsv.
  assert (Hts : target sr k' = Some (Some k', u)).
  { pose proof (treaches_winv U fuel s Hr) as Hw0. pose proof (w_texec U fuel (TDo (RNewWriter (Some k) isHEAD)) s Hw0) as [Hw1 _]. rewrite Hn in Hw1. cbn [fst] in Hw1.
    assert (Hk1 : exists y1, v_objs (world s1) !! k' = Some (WWrap y1) /\ ww_next y1 = u).
    { cbn in Hn. unfold ybind, NewWriter in Hn. fold (world s) in Hn. unfold target in Ht. destruct (v_objs (world s) !! k) as [[|u'|w]|] eqn:Hk0; try done.
      - injection Ht as <- <-. injection Hn as <- <-. eexists. split; [cbn; by apply list_lookup_middle|done].
      - injection Ht as <- <-. injection Hn as <- <-. by eexists. }
    destruct Hk1 as (y1 & Hk1 & Hy1).
    pose proof (w_run_handler U fuel inner s1 Hw1) as [_ (_ & _ & _ & Hgr)]. rewrite (Reply.returns_run U fuel inner s1 sr r z Hret Hz) in Hgr. cbn in Hgr.
    destruct (Hgr k' y1 Hk1) as (y2 & Hk2 & _ & Hy2 & _). unfold target. rewrite Hk2. congruence. }
  assert (Hcase : exists os, texec U fuel (TDo (RServe r k')) sr = (s2, os) /\ (os = ORet (YErr None) \/ exists e, x = Panicked e)).
  { inversion Hsv; subst.
    - match goal with H : texec _ _ (TDo (RServe r k')) sr = (s2, ORet (YErr ?e)) |- _ => exists (ORet (YErr e)); split; [exact H|]; destruct e; [right; by eexists|by left] end.
    - eexists. split; [done|]. right. by eexists. }
  destruct Hcase as (os & Hex & Hos). destruct (Hown r z k' (Some k') u got s2 os Hz Hb Hts Hho Hex Hf2) as (X & H1 & H2 & H3 & H4).
  exists X, m. split; [by rewrite Hg|]. split; [done|]. split; [done|]. split; [done|]. split; [done|]. intros Ha Hbl.
  destruct Hos as [Hos|(e & ->)]; [left; auto|right]. split; [done|]. by exists e.
Qed.
Theorem truncated_memory : forall s k by_ u got inner isHEAD s1 k' s2 x s' o sr r z i b,
  treaches U fuel s -> target s k = Some (by_, u) -> honest U u got -> (forall v b e, got (u_onpanic U v b e).1 = got v) -> (forall v, (u_writeheader U v u 500).2 = None) ->
  request U fuel inner k isHEAD s s1 k' s2 x s' o -> feasible (s_h s') ->
  returns U fuel inner s1 sr r -> s_rps sr !! r = Some z -> rp_body z = Some i -> h_b (s_h sr) !! i = Some (BBytes b) ->
  exists X m, gots got s' = gots got sr ++ X /\ X `prefix_of` left_in b /\ (bodiless sr k' (rp_code z) = true -> X = []) /\
    s_met s' = s_met s ++ m /\ length (requests_in m) = 1%nat /\
    (bodiless sr k' (rp_code z) = false -> X = left_in b \/ panics_in m = 1%nat /\ exists e, onpanics_in m = [e]).
Proof.
  intros s k by_ u got inner isHEAD s1 k' s2 x s' o sr r z i b Hr Ht Hho Hon Hwh Hq Hf Hret Hz Hb Hbb.
  destruct (truncated s k by_ u got inner isHEAD s1 k' s2 x s' o sr r z i (left_in b) True) as (X & m & H1 & H2 & H3 & H4 & H5 & H6); try done.
  { by apply Honest.bytes_owns. }
  exists X, m. split; [done|]. split; [done|]. split; [done|]. split; [done|]. split; [done|]. auto.
Qed.
End C.
