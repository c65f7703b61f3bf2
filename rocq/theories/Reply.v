(** * Whole requests (proofs) *)
From stdpp Require Import gmap.
From Coq Require Import ZifyBool.
From Verif Require Import RespFacts ReplySpec WriterProofs WriterMain ServeProofs ServeMain Metrics HdrFacts ViewFacts.
From Verif Require AdaptorMain Deliver CodeProofs HeapRun RunFacts.

Section A.
Context {V : Type} (U : uenv V) (fuel : nat).
Implicit Types (s : state V) (k : wid).

Lemma returns_run inner s s2 r x : returns U fuel inner s s2 r -> s_rps s2 !! r = Some x -> run_handler U fuel inner s = (s2, inl (ORet x)).
Proof.
  induction 1 as [r s|c f o s s1 s2 r Hc Ho _ IH]; intros Hx; cbn [run_handler]; [by rewrite Hx|].
  cbn [texec] in Hc. rewrite Hc. destruct o; [by apply IH..|done].
Qed.
Lemma returns_met inner s s2 r : returns U fuel inner s s2 r -> s_met s2 = s_met s.
Proof.
  induction 1 as [r s|c f o s s1 s2 r Hc Ho _ IH]; [done|]. rewrite IH. pose proof (n_rdo U fuel c s) as H. cbn [texec] in Hc. by rewrite Hc in H.
Qed.

(** ** Any Handler *)
Lemma sent_status s r x k by_ u s' :
  s_rps s !! r = Some x -> target s k = Some (by_, u) -> texec U fuel (TDo (RServe r k)) s = (s', ORet (YErr None)) ->
  exists new, serving U fuel s r k s' (ORet (YErr None)) new /\ status_sent new.
Proof.
  intros Hr Ht H. pose proof H as H0. rewrite (texec_serve U fuel s r x k Hr) in H.
  destruct (serve_pushes U fuel s x k by_ u Ht) as (s1 & l & pe & Ho & Hl & Hp & Hs). unfold ybind in H. rewrite Hs in H.
  destruct pe as [[err|p]|]; [done..|]. pose proof (ow_target _ _ k Ho) as Ht1. rewrite Ht in Ht1.
  destruct (serve_rest U fuel x k s1) as [s2 o2] eqn:Hs2. destruct o2 as [e2| |]; try done. injection H as -> ->.
  destruct (rest_run U fuel s1 x k by_ u s' (ORet None) Ht1 Hs2) as [(_ & _ & e & He)|(h' & hdrs & s3 & w & ow & -> & Hm & Hc & Hw & [([e ->] & _ & _)|(res & tail & _ & _ & Hl2 & _)])]; [done|..].
  - exfalso. unfold serve_rest in Hs2. apply ybind_ret in Hs2 as (s4 & h & Hh & Hs2). apply ybind_ret in Hs2 as (s5 & hdrs' & Hm' & Hs2). apply ybind_ret in Hs2 as (s6 & [] & Hc' & Hs2).
    apply ybind_ret in Hs2 as (s7 & [] & Hw' & _).
    assert (Hh2 : any_Header U k s1 = (s1, ORet (u_map U (v_v (world s1)) u))).
    { unfold any_Header, target in *. fold (world s1). destruct (v_objs (world s1) !! k) as [[]|]; try done; by injection Ht1 as <- <-. }
    rewrite Hh2 in Hh. injection Hh as <- <-. rewrite Hm in Hm'. injection Hm' as <- <-. rewrite Hc in Hc'. injection Hc' as <-. by rewrite Hw in Hw'.
  - eexists. split; [split; [exact H0|by rewrite Hl2, Hl, <- app_assoc]|]. eexists by_, u, (rp_code x), res. rewrite !elem_of_app, elem_of_cons. tauto.
Qed.
Lemma status_is s k y u st res : winv U (world s) -> v_objs (world s) !! k = Some (WWrap y) -> UHeader (Some k) u st res ∈ wlog s -> ww_status y = st.
Proof.
  intros [Hok _] Hk Hin. destruct (Hok k y Hk) as [_ _ (pre & post & Hp & Hpre & Hpost) _ _ _]. apply sent_header in Hin. change (v_log (world s)) with (wlog s) in Hp. rewrite Hp in Hin.
  apply elem_of_app in Hin as [Hin|Hin].
  - rewrite Forall_forall in Hpre. by specialize (Hpre _ Hin).
  - destruct post as [|e post]; [by apply elem_of_nil in Hin|]. destruct e; try done. destruct Hpost as (-> & _ & Hf). apply elem_of_cons in Hin as [Hin|Hin]; [by injection Hin|].
    rewrite Forall_forall in Hf. exfalso. by eapply Hf.
Qed.
Theorem request : forall s k u h got inner isHEAD s1 k' s2 r x i R busy X Y s' o,
  treaches U fuel s -> target s k = Some (None, u) -> accepting U u got -> (forall v, u_map U v u = h) ->
  (forall v r, (ev_close (u_env U) v r).2 = None) ->
  texec U fuel (TDo (RNewWriter (Some k) isHEAD)) s = (s1, ORet (YHandle (Some k'))) ->
  returns U fuel inner s1 s2 r -> s_rps s2 !! r = Some x -> rp_body x = Some i -> delivers U fuel busy s2 i R ->
  reports U fuel s2 k' WStatus (YInt 0) -> hview s2 (rp_hdrs x) = Some X -> view s2 h = Some Y ->
  texec U fuel (TServe inner (Some k) isHEAD) s = (s', o) -> feasible (s_h s') ->
  o = OSpin /\ (busy \/ (fuel < length R + 2)%nat) \/
  o = ORet YUnit /\
  got (v_v (world s')) = got (v_v (world s2)) ++ (if isHEAD || (rp_code x =? 204) then [] else R) /\
  statuses_in (sent_by k' (wlog s')) = [(u, rp_code x)] /\
  view s' h = Some (delete "Push" X ∪ Y) /\
  s_met s' = s_met s ++ tally (itoa (rp_code x)) (wrap64 (total_accepted (sent_by k' (wlog s')))).
Proof.
  intros s k u h got inner isHEAD s1 k' s2 r x i R busy X Y s' o Hrc Ht Hac Hmap Hcl Hn Hret Hx Hb [_ Hdel] Hst HX HY H Hf.
  pose proof (returns_run _ _ _ _ _ Hret Hx) as Hrun.
  (* the Writer *)
  unfold target in Ht. destruct (v_objs (world s) !! k) as [[|u'|]|] eqn:Hk; try done. injection Ht as ->.
  assert (HN : exists y, NewWriter U (Some k) isHEAD s = (s1, ORet k') /\ v_objs (world s1) !! k' = Some (WWrap y) /\ ww_next y = u /\ ww_isHEAD y = isHEAD).
  { cbn in Hn. unfold ybind in Hn. unfold NewWriter in Hn |- *. fold (world s) in Hn |- *. rewrite Hk in Hn |- *. injection Hn as <- <-. eexists. split; [reflexivity|]. cbn. split; [by apply list_lookup_middle|done]. }
  destruct HN as (y & HN & Hy & Hnx & Hhd).
  pose proof (treaches_winv U fuel s Hrc) as Hw0.
  destruct (w_NewWriter U (Some k) isHEAD s Hw0) as [Hw1 _]. rewrite HN in Hw1. cbn in Hw1.
  destruct (w_run_handler U fuel inner s1 Hw1) as [Hw2 (_ & _ & _ & Hg2)]. rewrite Hrun in Hw2, Hg2. cbn in Hw2, Hg2.
  destruct (Hg2 k' y Hy) as (y2 & Hy2 & _ & Hnx2 & Hhd2 & _). rewrite Hnx in Hnx2. rewrite Hhd in Hhd2.
  apply reports_Status in Hst as (y2' & Hy2' & Hst). assert (y2' = y2) as -> by (unfold wid in *; congruence). clear Hy2'.
  assert (Ht2 : target s2 k' = Some (Some k', u)) by (unfold target; by rewrite Hy2, Hnx2).
  assert (Hcode : 200 <= rp_code x <= 999).
  { pose proof (CodeProofs.c_NewWriter U (Some k) isHEAD s (CodeProofs.treaches_codes U fuel s Hrc)) as C1. rewrite HN in C1.
    pose proof (CodeProofs.c_run_handler U fuel inner s1 C1) as [_ C2]. rewrite Hrun in C2. cbn in C2. rewrite Forall_lookup in C2. by eapply C2. }
  assert (Hrdy : ready s2 k' (rp_code x)) by (unfold ready; rewrite Hy2; split; [done|lia]).
  assert (Hbl : bodiless s2 k' (rp_code x) = isHEAD || (rp_code x =? 204)) by (unfold bodiless; by rewrite Hy2, Hhd2).
  (* Serve *)
  destruct (texec U fuel (TDo (RServe r k')) s2) as [s3 o3] eqn:Hsv.
  specialize (Hdel r x k' (Some k') u h got s3 o3 Hx Hb Ht2 Hrdy Hac Hmap ltac:(by exists X) ltac:(by exists Y) Hsv).
  cbn in H. unfold ybind in H. unfold ServeHTTP in H. rewrite HN, Hrun in H.
  pose proof Hsv as Hsv'. rewrite (texec_serve U fuel s2 r x k' Hx) in Hsv'. unfold ybind in Hsv'.
  destruct (rp_Serve U fuel x k' s2) as [s3' o3'] eqn:Hrs.
  assert (Hfd : forall pv, pres Deliver.fR (adaptor_defer U k' pv)).
  { intros pv. pose proof (@Deliver.f_on_writer V). pose proof (@Deliver.f_lookup_wrap V). unfold adaptor_defer. cbv zeta. pres_go.
    - intros s0. rewrite AdaptorMain.mets_run. by intros ?.
    - intros s0. by intros ?.
    - intros s0. unfold outside. destruct (u_onpanic U _ _ _) as [v [e|]]; by intros ?. }
  destruct o3' as [e3|e3|]; injection Hsv' as -> <-.
  2: { assert (Hf3 : feasible (s_h s3)).
       { pose proof (Hfd (Some e3) s3) as Hd. destruct (adaptor_defer U k' (Some e3) s3) as [s4 [?|?|]]; injection H as <- _; exact (Hd Hf). }
       destruct (Hdel Hf3) as [_ Hd]. by destruct (Hd ltac:(done)) as (? & ? & _). }
  2: { injection H as <- <-. left. split; [done|]. destruct (Hdel Hf) as [Hd _]. by apply Hd. }
  assert (Hf3 : feasible (s_h s3)).
  { destruct e3 as [e3|].
    - pose proof (Hfd (Some (PError e3)) s3) as Hd. destruct (adaptor_defer U k' _ s3) as [s4 [?|?|]]; injection H as <- _; exact (Hd Hf).
    - pose proof (Hfd None s3) as Hd. destruct (adaptor_defer U k' _ s3) as [s4 [?|?|]]; injection H as <- _; exact (Hd Hf). }
  destruct (Hdel Hf3) as [_ Hd]. destruct (Hd ltac:(done)) as (e & [= <-] & He & Hgot). rewrite (He Hcl) in *. clear He Hd Hdel.
  (* the deferred function *)
  destruct (sent_status s2 r x k' (Some k') u s3 Hx Ht2 Hsv) as (new & Hserv & Hsent).
  destruct (ServeMain.headers U fuel s2 r x k' (Some k') u h X Y s3 _ new Hx Ht2 Hmap HX HY Hserv Hsent) as ((l & res & tail & -> & _) & Hv & _).
  destruct (w_texec U fuel (TDo (RServe r k')) s2 Hw2) as [Hw3 (_ & _ & _ & Hg3)]. rewrite Hsv in Hw3, Hg3. cbn [fst] in Hw3, Hg3.
  destruct (Hg3 k' y2 Hy2) as (y3 & Hy3 & _ & Hnx3 & _). rewrite Hnx2 in Hnx3.
  assert (Hst3 : ww_status y3 = rp_code x).
  { apply (status_is s3 k' y3 u (rp_code x) res); [done|done|]. destruct Hserv as [_ ->]. rewrite !elem_of_app, elem_of_cons. tauto. }
  right. destruct (adaptor_defer U k' None s3) as [s4 o4] eqn:Hdef.
  destruct (AdaptorMain.defer_run U s3 k' y3 None s4 o4 Hy3 Hdef) as ((y4 & Hy4 & Hs4 & Hn4) & Hlog & Hend). rewrite Hst3 in *. replace (rp_code x =? 0) with false in * by lia. rewrite app_nil_r in Hlog.
  assert (Hdr : s4 = put_met s3 (s_met s3 ++ tally (itoa (rp_code x)) (ww_bytes y3)) /\ o4 = ORet tt).
  { unfold adaptor_defer in Hdef. unfold ybind at 1, lookup_wrap, ybind at 1, lookup_w in Hdef. fold (world s3) in Hdef. rewrite Hy3 in Hdef. cbn [yret] in Hdef. unfold yret at 1 in Hdef. cbv zeta in Hdef.
    unfold ybind at 1 in Hdef. unfold on_writer in Hdef. fold (world s3) in Hdef. rewrite (MaybeWriteHeader_run U) in Hdef.
    change ((100 <=? StatusInternalServerError) && (StatusInternalServerError <=? 999)) with true in Hdef. rewrite Hy3 in Hdef.
    rewrite Hst3 in Hdef. replace (rp_code x =? 0) with false in Hdef by lia. cbv zeta in Hdef.
    assert (Hss : put_h s3 (heap_w (s_h s3) (world s3)) = s3) by (destruct s3 as [[] ? ? ? ? ?]; done). rewrite Hss in Hdef.
    unfold ybind in Hdef. rewrite AdaptorMain.mets_run in Hdef. by injection Hdef as <- <-. }
  destruct Hdr as [-> ->]. injection H as <- <-. split; [done|]. rewrite Hbl in Hgot. split; [exact Hgot|].
  assert (Hm3 : s_met s3 = s_met s).
  { pose proof (n_NewWriter U (Some k) isHEAD s) as N1. rewrite HN in N1. pose proof (returns_met _ _ _ _ Hret) as N2.
    pose proof (n_rdo U fuel (RServe r k') s2) as N3. cbn [texec] in Hsv. rewrite Hsv in N3. cbn in N1, N2, N3. congruence. }
  destruct Hw3 as [Hok _]. destruct (Hok k' y3 Hy3) as [_ Hnxt (pre & post & Hp & Hpre & Hpost) Hbytes _ _]. change (v_log (world s3)) with (wlog s3) in *.
  split.
  { change (wlog (put_met s3 _)) with (wlog s3). rewrite Hp. unfold statuses_in. rewrite omap_app. fold (statuses_in pre) (statuses_in post). rewrite (AdaptorMain.statuses_push pre Hpre). cbn.
    destruct post as [|e post]; [exfalso; lia|]. destruct e; try done. destruct Hpost as (Hs & _ & Hfp). cbn. fold (statuses_in post). rewrite (AdaptorMain.statuses_none post Hfp).
    rewrite Hp in Hnxt. apply Forall_app in Hnxt as [_ Hnxt]. apply Forall_cons in Hnxt as [Hu _]. repeat f_equal; congruence. }
  split; [exact Hv|]. cbn. by rewrite Hm3, Hbytes.
Qed.

(** ** A Handler that answers with some bytes in memory *)
(** The Body [ob], made by [new]: its length is [n], and writing it to [k] and
    closing it in the world [w] leads to the world [w'] and gives [r] and [e]. *)
Definition is_new (new : cmd) (ob : bobj) : Prop :=
  forall h : heap (wst V), uexec U fuel h new = ({| h_b := h_b h ++ [ob]; h_c := h_c h; h_w := h_w h; h_log := h_log h |}, ORet (RBody (length (h_b h)) None)).
Definition is_long (ob : bobj) (n : Z) : Prop :=
  forall (h : heap (wst V)) i, h_b h !! i = Some ob -> uexec U fuel h (Call i BytesRemaining) = (h, ORet (RInt n)).
Definition is_written (ob : bobj) k (w w' : wst V) (r : Z) (e : option error) : Prop :=
  is_WriterTo ob = true /\
  forall (h : heap (wst V)) i, h_b h !! i = Some ob -> h_w h = w -> exists h1 h2,
    uexec U fuel h (Call i (WriteTo k)) = (h1, ORet (RWriteTo r e)) /\ uexec U fuel h1 (Call i Close) = (h2, ORet (RErr None)) /\ h_w h2 = w'.

Lemma build_runs s b x i ob n : swf s -> s_bds s !! b = Some x -> bd_hdrs x = None -> bd_body x = Some i -> bd_err x = None -> (bd_code x =? 0) = false ->
  h_b (s_h s) !! i = Some ob -> is_long ob n -> 0 <= n ->
  let m := length (s_maps s) in
  exists s2, bd_Build U fuel b s = (s2, ORet (length (s_rps s))) /\
    s_rps s2 = s_rps s ++ [{| rp_code := bd_code x; rp_hdrs := Some m; rp_body := Some i; rp_err := None |}] /\ s_h s2 = s_h s /\
    view s2 m = Some (plain_header n) /\ (forall m', m' <> m -> view s2 m' = view s m') /\ s_met s2 = s_met s.
Proof.
  intros Hs Hb Hh Hbody Herr Hcode Hi Hlong Hn m. unfold bd_Build. unfold ybind at 1. unfold the_bd. rewrite Hb. rewrite Hbody, Hh, Hcode, Herr.
  unfold ybind at 1. unfold massert, yret at 1. unfold ybind at 1. unfold set_bd. cbv zeta.
  unfold ybind at 1. unfold make_map. cbn [s_maps put_bds].
  match goal with |- context [put_maps ?a ?b] => set (s1 := put_maps a b) end.
  assert (Hs1 : swf s1) by (unfold swf; cbn; apply sound_maps_app; [done|apply sound_empty]).
  assert (Hv1 : view s1 m = Some ∅).
  { unfold view. cbn. unfold m. rewrite lookup_app_r, Nat.sub_diag by done. cbn. by rewrite fmap_empty. }
  assert (Hv1' : forall m', m' <> m -> view s1 m' = view s m').
  { intros m' Hne. unfold view. cbn. destruct (decide (m' < m)%nat); [by rewrite lookup_app_l|].
    rewrite lookup_app_r by (fold m; lia). rewrite (lookup_ge_None_2 (s_maps s)) by (fold m; lia).
    destruct (m' - length (s_maps s))%nat as [|q] eqn:E; [unfold m in *; lia|done]. }
  destruct (fill_view s1 m ∅ contentType "application/octet-stream" Hs1 Hv1) as (s2 & Hf2 & (Rh2 & Rb2 & Rr2 & Rm2) & Hv2 & Hs2 & Ho2).
  unfold ybind at 1. fold m. rewrite Hf2. unfold ybind at 1. unfold body_call, of_opt. unfold ybind at 1. unfold yret at 1. unfold body_cmd. rewrite Rh2. change (s_h s1) with (s_h s).
  rewrite (Hlong (s_h s) i Hi). unfold ybind at 1. replace (n >=? 0) with true by lia.
  assert (Hput : put_h s2 (s_h s) = s2) by (change (s_h s) with (s_h s1); rewrite <- Rh2; by destruct s2). rewrite Hput.
  destruct (fill_view s2 m _ contentLength (itoa n) Hs2 Hv2) as (s3 & Hf3 & (Rh3 & Rb3 & Rr3 & Rm3) & Hv3 & Hs3 & Ho3).
  rewrite Hf3. unfold make_rp. eexists. rewrite Rr3, Rr2. change (s_rps s1) with (s_rps s). split; [reflexivity|]. split; [done|].
  split; [cbn; rewrite Rh3, Rh2; done|]. split.
  { change (view (put_rps s3 _) m) with (view s3 m). rewrite Hv3. apply f_equal.
    change contentType with "Content-Type". change contentLength with "Content-Length".
    rewrite lookup_insert_ne by done. rewrite lookup_empty. by rewrite insert_commute by done. }
  split; [|cbn; by rewrite Rm3, Rm2]. intros m' Hne. change (view (put_rps s3 _) m') with (view s3 m'). by rewrite Ho3, Ho2, Hv1'.
Qed.

Lemma reply_runs new ob n code s : swf s -> is_new new ob -> is_long ob n -> 0 <= n -> 200 <= code <= 999 ->
  let i := length (h_b (s_h s)) in let m := length (s_maps s) in
  exists s2, run_handler U fuel (reply_with new code) s = (s2, inl (ORet {| rp_code := code; rp_hdrs := Some m; rp_body := Some i; rp_err := None |})) /\
    s_h s2 = {| h_b := h_b (s_h s) ++ [ob]; h_c := h_c (s_h s); h_w := h_w (s_h s); h_log := h_log (s_h s) |} /\
    view s2 m = Some (plain_header n) /\ (forall m', m' <> m -> view s2 m' = view s m') /\ s_met s2 = s_met s.
Proof.
  intros Hs Hnew Hlong Hn Hcode i m. set (h1 := {| h_b := h_b (s_h s) ++ [ob]; h_c := h_c (s_h s); h_w := h_w (s_h s); h_log := h_log (s_h s) |}).
  unfold reply_with. cbn [run_handler rdo]. unfold ybind at 1. unfold body_cmd. rewrite Hnew. fold h1. cbn [yret].
  cbn [run_handler rdo]. unfold ybind at 1. unfold NewBuilder, make_bd. cbn [s_bds put_h]. unfold yret at 1.
  set (b := length (s_bds s)). assert (Hb : forall x, (s_bds s ++ [x]) !! b = Some x) by (intros x; apply list_lookup_middle; done).
  assert (Hins : forall x y, <[b := y]> (s_bds s ++ [x]) = s_bds s ++ [y]) by (intros x y; unfold b; by rewrite insert_app_r_alt, Nat.sub_diag by done).
  cbn [run_handler rdo]. unfold ybind at 1. cbn [bd_do]. unfold bd_WithStatus. unfold ybind at 1. unfold the_bd. cbn [s_bds put_bds put_h]. rewrite Hb.
  unfold ybind at 1. unfold massert. replace (code >=? 200) with true by lia. unfold yret at 1. unfold ybind at 1. replace (code <=? 999) with true by lia. unfold yret at 1.
  unfold set_bd. cbn [s_bds put_bds put_h]. rewrite Hins. unfold yret at 1.
  cbn [run_handler rdo]. unfold ybind at 1. cbn [bd_do]. unfold bd_WithBody. unfold ybind at 1. unfold the_bd. cbn [s_bds put_bds put_h]. rewrite Hb.
  unfold set_bd. cbn [s_bds put_bds put_h]. rewrite Hins. unfold yret at 1.
  cbn [run_handler rdo]. unfold ybind at 1.
  match goal with |- context [bd_Build U fuel b ?st] => set (s1 := st) end.
  destruct (build_runs s1 b _ i ob n Hs (Hb _) eq_refl eq_refl eq_refl ltac:(cbn; lia) ltac:(cbn; by apply list_lookup_middle) Hlong Hn) as (s2 & -> & Hr & Hh & Hv & Ho & Hm).
  unfold yret at 1. cbn [run_handler]. unfold ybind, the_rp. rewrite Hr. rewrite list_lookup_middle by done.
  eexists. split; [reflexivity|]. split; [done|]. split; [exact Hv|]. split; [|done]. intros m' Hne. by rewrite Ho.
Qed.

(** The Writer of the request, once the status has been sent. *)
Definition after_header (w : wst V) (u : uid) (isHEAD : bool) (code : Z) (v1 : V) : wst V :=
  let k' := length (v_objs w) in
  {| v_v := v1;
     v_objs := v_objs w ++ [WWrap {| ww_kind := if is_fancy (u_caps U u) then KFancy else if wc_flusher (u_caps U u) then KFlush else KBasic;
                                     ww_next := u; ww_bytes := 0; ww_status := code; ww_isHEAD := isHEAD; ww_sawError := false |}];
     v_log := v_log w ++ [UAsked k' code; UHeader (Some k') u code None] |}.

Lemma serve_core s k u h Y new ob n code isHEAD v1 w' r e :
  swf s -> v_objs (world s) !! k = Some (WRaw u) -> u_map U (v_v (world s)) u = h -> view s h = Some Y ->
  is_new new ob -> is_long ob n -> 0 <= n -> 200 <= code <= 999 ->
  u_writeheader U (v_v (world s)) u code = (v1, None) ->
  let k' : wid := length (v_objs (world s)) in
  is_written ob k' (after_header (world s) u isHEAD code v1) w' r e ->
  exists s3, texec U fuel (TServe (reply_with new code) (Some k) isHEAD) s = ybind (adaptor_defer U k' (PError <$> e)) (fun _ => yret YUnit) s3 /\
    world s3 = w' /\ view s3 h = Some (plain_header n ∪ Y) /\ (forall m X, m <> h -> view s m = Some X -> view s3 m = Some X) /\ s_met s3 = s_met s.
Proof.
  intros Hs Hk Hmap HY Hnew Hlong Hn Hcode Hwh k' [Hwt Hwr].
  assert (Hlt : forall m X, view s m = Some X -> (m < length (s_maps s))%nat) by (intros m X (x & Hm & _)%view_lookup; by eapply lookup_lt_Some).
  set (y := {| ww_kind := if is_fancy (u_caps U u) then KFancy else if wc_flusher (u_caps U u) then KFlush else KBasic;
                                     ww_next := u; ww_bytes := 0; ww_status := 0; ww_isHEAD := isHEAD; ww_sawError := false |}).
  set (w1 := set_objs (world s) (v_objs (world s) ++ [WWrap y])). set (s1 := put_h s (heap_w (s_h s) w1)).
  assert (HN : NewWriter U (Some k) isHEAD s = (s1, ORet k')).
  { unfold NewWriter. fold (world s). by rewrite Hk. }
  destruct (reply_runs new ob n code s1 Hs Hnew Hlong Hn Hcode) as (s2 & Hrun & Hh2 & Hv2 & Ho2 & Hm2).
  set (i := length (h_b (s_h s1))) in *. set (m := length (s_maps s1)) in *. change (length (s_maps s)) with m in Hlt.
  set (x := {| rp_code := code; rp_hdrs := Some m; rp_body := Some i; rp_err := None |}) in *.
  assert (Hw2 : world s2 = w1) by (unfold world; by rewrite Hh2).
  assert (Hy2 : v_objs (world s2) !! k' = Some (WWrap y)) by (rewrite Hw2; cbn; by apply list_lookup_middle).
  assert (Ht2 : target s2 k' = Some (Some k', u)) by (unfold target; by rewrite Hy2).
  assert (HY2 : view s2 h = Some Y) by (rewrite Ho2; [exact HY|apply Hlt in HY; lia]).
  assert (Hhe : any_Header U k' s2 = (s2, ORet h)).
  { unfold any_Header. fold (world s2). rewrite Hy2. cbn [ww_next y]. rewrite Hw2. cbn. by rewrite Hmap. }
  assert (Hmm : exists hdrs, map_or_nil (Some m) s2 = (s2, ORet hdrs) /\ contents_of (s_arrs s2) <$> hdrs = plain_header n).
  { apply view_lookup in Hv2 as (hdrs & Hm & Hc). exists hdrs. split; [|done]. unfold map_or_nil, the_map. unfold mid in *. by rewrite Hm. }
  destruct Hmm as (hdrs & Hmm & Hcont).
  destruct (copy_to_view s2 h hdrs Y HY2) as (maps' & Hc & Hvc & Hvo). rewrite Hcont in Hvc. rewrite delete_notin in Hvc by (unfold plain_header; by rewrite !lookup_insert_ne).
  set (s3 := put_maps s2 maps') in *.
  set (w3 := after_header (world s) u isHEAD code v1) in *. set (s4 := put_h s3 (heap_w (s_h s3) w3)).
  assert (Hwh3 : any_WriteHeader U k' code s3 = (s4, ORet tt)).
  { unfold any_WriteHeader. unfold ybind at 1. unfold lookup_w. change (h_w (s_h s3)) with (world s2). rewrite Hy2. unfold on_writer. change (h_w (s_h s3)) with (world s2).
    unfold wrap_WriteHeader, wbind, wnote, wassert. replace (code >=? 100) with true by lia. replace (code <=? 999) with true by lia. cbn. unfold wget. cbn. rewrite Hy2. cbn. unfold writeHeaderImpl, wbind, wget. cbn. rewrite Hy2. cbn. unfold raw_WriteHeader. cbn.
    rewrite Hw2. cbn. rewrite Hwh. unfold s4. f_equal. f_equal. unfold w3, after_header, note, put_obj. cbn. rewrite <- app_assoc. unfold k'. rewrite insert_app_r_alt, Nat.sub_diag by done. done. }
  assert (Hi4 : h_b (s_h s4) !! i = Some ob) by (cbn; rewrite Hh2; by apply list_lookup_middle).
  destruct (Hwr (s_h s4) i Hi4 eq_refl) as (h5 & h6 & Hex & Hcl & Hw6).
  exists (put_h (put_h s4 h5) h6). split; [|split; [exact Hw6|]].
  2: { split; [exact Hvc|]. split; [|exact Hm2]. intros m' X Hne HX. change (view s3 m' = Some X). rewrite Hvo by done. rewrite Ho2; [exact HX|apply Hlt in HX; lia]. }
  cbn [texec]. unfold ybind at 1. unfold ServeHTTP. rewrite HN, Hrun.
  assert (Hrs : rp_Serve U fuel x k' s2 = (put_h (put_h s4 h5) h6, ORet e)).
  { unfold rp_Serve. unfold ybind at 1. unfold lookup_w. fold (world s2). rewrite Hy2. unfold any_Pusher. unfold ybind at 1. unfold ybind at 1. change (rp_hdrs x) with (Some m). rewrite Hmm. unfold ybind at 1. unfold contents.
    assert (Hpu : hdrs !! headerPush = None).
    { change headerPush with "Push". assert (Hq : (contents_of (s_arrs s2) <$> hdrs) !! "Push" = None) by (rewrite Hcont; unfold plain_header; by rewrite !lookup_insert_ne). rewrite lookup_fmap in Hq. by destruct (hdrs !! "Push"). }
    rewrite Hpu. cbn [default contents_of nil_slice sl_arr push_all]. unfold from_option, id. cbn [contents_of nil_slice sl_arr push_all]. unfold yret at 1.
    unfold ybind at 1. rewrite Hhe. unfold ybind at 1. rewrite Hmm. unfold ybind at 1. rewrite Hc. unfold ybind at 1. change (rp_code x) with code. rewrite Hwh3.
    unfold ybind at 1. change (rp_body x) with (Some i). unfold io_Copy. unfold ybind at 1. unfold lookup_b. rewrite Hi4, Hwt. unfold write_to. unfold ybind at 1. rewrite (body_call_some U fuel i), Hex. unfold yret at 1.
    unfold ybind at 1. rewrite (body_call_some U fuel i). cbn [s_h put_h]. rewrite Hcl. destruct e; done. }
  rewrite Hrs. destruct e as [e|]; done.
Qed.

(** The deferred function, the status having been sent. *)
Lemma defer_sent s k y e : v_objs (world s) !! k = Some (WWrap y) -> ww_status y <> 0 ->
  exists s', ybind (adaptor_defer U k (PError <$> e)) (fun _ => yret YUnit) s = (s', match onpanic U (v_v (world s)) e with (_, Some p) => OPanic p | _ => ORet YUnit end) /\
    v_v (world s') = (onpanic U (v_v (world s)) e).1 /\ wlog s' = wlog s /\ s_maps s' = s_maps s /\ s_arrs s' = s_arrs s /\
    s_met s' = s_met s ++ counted_as (itoa (ww_status y)) (ww_bytes y) e.
Proof.
  intros Hk Hst. unfold adaptor_defer. unfold ybind at 1. unfold ybind at 1. unfold lookup_wrap. unfold ybind at 1. unfold lookup_w. fold (world s). rewrite Hk. unfold yret at 1. cbv zeta.
  unfold ybind at 1. unfold on_writer. fold (world s). rewrite (MaybeWriteHeader_run U).
  change ((100 <=? StatusInternalServerError) && (StatusInternalServerError <=? 999)) with true. rewrite Hk.
  replace (ww_status y =? 0) with false by lia.
  assert (Hss : put_h s (heap_w (s_h s) (world s)) = s) by (destruct s as [[] ? ? ? ? ?]; done). rewrite Hss. cbv iota.
  unfold ybind at 1. rewrite AdaptorMain.mets_run. destruct e as [e|]; cbn [fmap option_fmap option_map].
  - unfold ybind at 1. unfold met, outside, counted_as, onpanic. cbn [is_go_error negb s_h put_met]. fold (world s). destruct (u_onpanic U (v_v (world s)) false (PError e)) as [v x].
    eexists. split; [destruct x; reflexivity|]. cbn. split; [done|]. split; [done|]. split; [done|]. split; [done|]. by rewrite <- app_assoc.
  - eexists. split; [reflexivity|]. done.
Qed.

Lemma one_request s k u h Y new ob n code isHEAD v1 w' r e y' :
  swf s -> v_objs (world s) !! k = Some (WRaw u) -> u_map U (v_v (world s)) u = h -> view s h = Some Y ->
  is_new new ob -> is_long ob n -> 0 <= n -> 200 <= code <= 999 ->
  u_writeheader U (v_v (world s)) u code = (v1, None) ->
  let k' : wid := length (v_objs (world s)) in
  is_written ob k' (after_header (world s) u isHEAD code v1) w' r e -> v_objs w' !! k' = Some (WWrap y') -> ww_status y' = code ->
  exists s', texec U fuel (TServe (reply_with new code) (Some k) isHEAD) s = (s', match onpanic U (v_v w') e with (_, Some p) => OPanic p | _ => ORet YUnit end) /\
    v_v (world s') = (onpanic U (v_v w') e).1 /\ wlog s' = v_log w' /\
    view s' h = Some (plain_header n ∪ Y) /\ (forall m X, m <> h -> view s m = Some X -> view s' m = Some X) /\
    s_met s' = s_met s ++ counted_as (itoa code) (ww_bytes y') e.
Proof.
  intros Hs Hk Hmap HY Hnew Hlong Hn Hcode Hwh k' Hwr Hy' Hst.
  destruct (serve_core s k u h Y new ob n code isHEAD v1 w' r e Hs Hk Hmap HY Hnew Hlong Hn Hcode Hwh Hwr) as (s3 & Hex & Hw3 & Hv3 & Ho3 & Hm3).
  subst w'. destruct (defer_sent s3 k' y' e Hy' ltac:(lia)) as (s' & Hd & Hv & Hl & Hmaps & Harrs & Hm). exists s'. rewrite Hex. split; [exact Hd|]. split; [done|]. split; [exact Hl|].
  assert (Hview : forall m, view s' m = view s3 m) by (intros m; unfold view; by rewrite Hmaps, Harrs).
  split; [by rewrite Hview|]. split; [|by rewrite Hm, Hm3, Hst]. intros m X Hne HX. rewrite Hview. by apply Ho3.
Qed.

Lemma new_bytes new d : holding new d -> d <> [] -> is_new new (BBytes {| by_data := d; by_offset := 0; by_eof := false; by_closed := false |}).
Proof.
  intros Hn Hd h. destruct Hn as [->|(str & -> & <-)]; unfold uexec, xexec, cmd_prog.
  - unfold FromBytes. replace (zlen d =? 0) with false by (unfold zlen; destruct d; [done|cbn; lia]). done.
  - unfold FromString. destruct str as [|c str]; [done|]. cbn [String.length]. replace (Z.of_nat (S (String.length str)) =? 0) with false by lia. done.
Qed.
Lemma new_empty new : holding new [] \/ new = NewEmpty -> is_new new (BEmpty {| em_eof := false; em_closed := false |}).
Proof.
  intros Hn h. assert (Hs : forall str, list_ascii_of_string str = [] -> str = ""%string) by (by intros []).
  destruct Hn as [[->|(str & -> & ->%Hs)]| ->]; done.
Qed.
Lemma long_bytes d : is_long (BBytes {| by_data := d; by_offset := 0; by_eof := false; by_closed := false |}) (zlen d).
Proof. intros h i Hi. unfold uexec, xexec, cmd_prog. rewrite Hi. cbn. rewrite Hi. cbn. by rewrite Z.sub_0_r. Qed.
Lemma long_empty : is_long (BEmpty {| em_eof := false; em_closed := false |}) 0.
Proof. intros h i Hi. unfold uexec, xexec, cmd_prog. rewrite Hi. cbn. rewrite ?Hi. done. Qed.
Lemma written_bytes d k w w' n e : any_Write U k d w = (w', inl (n, e)) -> 0 <= n <= zlen d ->
  is_written (BBytes {| by_data := d; by_offset := 0; by_eof := false; by_closed := false |}) k w w' n e.
Proof.
  intros Hw Hn. split; [done|]. intros h i Hi <-. assert (Hs : slice d 0 (zlen d) = Some d).
  { rewrite RunFacts.slice_ok by (unfold zlen; lia). f_equal. apply take_ge. cbn. unfold zlen. lia. }
  eexists _, _. split; [|split].
  - unfold uexec, xexec, cmd_prog. rewrite Hi. cbn. rewrite Hi. cbn. rewrite Hs. cbn. rewrite Hw. cbn. replace (n >=? 0) with true by lia. cbn. rewrite Z.sub_0_r. replace (n <=? zlen d) with true by lia. cbn. rewrite Hi. cbn. reflexivity.
  - unfold uexec, xexec, cmd_prog. cbn. rewrite list_lookup_insert by (by eapply lookup_lt_Some). cbn. rewrite list_lookup_insert by (by eapply lookup_lt_Some). cbn. rewrite list_lookup_insert by (by eapply lookup_lt_Some). cbn. reflexivity.
  - done.
Qed.
Lemma written_empty k w : is_written (BEmpty {| em_eof := false; em_closed := false |}) k w w 0 (Some EOF).
Proof.
  split; [done|]. intros h i Hi <-. eexists _, _. split; [|split].
  - unfold uexec, xexec, cmd_prog. rewrite Hi. cbn. rewrite Hi. cbn. reflexivity.
  - unfold uexec, xexec, cmd_prog. rewrite Hi. cbn. rewrite Hi. cbn. rewrite Hi. cbn. reflexivity.
  - done.
Qed.

Theorem bytes s k u h Y new d code isHEAD v1 v2 n e :
  treaches U fuel s -> target s k = Some (None, u) -> u_map U (v_v (world s)) u = h -> view s h = Some Y ->
  holding new d -> d <> [] -> go_cmd new -> 200 <= code <= 999 ->
  u_writeheader U (v_v (world s)) u code = (v1, None) ->
  (if isHEAD || (code =? 204) then v2 = v1 /\ n = 0 /\ e = None else ev_write (u_env U) v1 u d = (v2, inl (n, e)) /\ 0 <= n <= zlen d) ->
  let k' : wid := length (v_objs (world s)) in
  exists s', texec U fuel (TServe (reply_with new code) (Some k) isHEAD) s = (s', match onpanic U v2 e with (_, Some p) => OPanic p | _ => ORet YUnit end) /\
    v_v (world s') = (onpanic U v2 e).1 /\
    wlog s' = wlog s ++ [UAsked k' code; UHeader (Some k') u code None] ++ (if isHEAD || (code =? 204) then [] else [UWrite (Some k') u d (inl (n, e))]) /\
    view s' h = Some (plain_header (zlen d) ∪ Y) /\ (forall m X, m <> h -> view s m = Some X -> view s' m = Some X) /\
    s_met s' = s_met s ++ counted_as (itoa code) n e.
Proof.
  intros Hs%treaches_swf Ht Hmap HY Hnew Hd Hgo Hcode Hwh Hwr k'.
  unfold target in Ht. destruct (v_objs (world s) !! k) as [[|u'|]|] eqn:Hk; try done. injection Ht as ->.
  set (w1 := after_header (world s) u isHEAD code v1).
  assert (Hk1 : v_objs w1 !! k' = Some (WWrap {| ww_kind := if is_fancy (u_caps U u) then KFancy else if wc_flusher (u_caps U u) then KFlush else KBasic;
                                     ww_next := u; ww_bytes := 0; ww_status := code; ww_isHEAD := isHEAD; ww_sawError := false |})) by (cbn; by apply list_lookup_middle).
  assert (Hmax : zlen d <= max_slice).
  { destruct Hnew as [->|(str & -> & <-)]; [done|]. cbn in Hgo. by rewrite HeapRun.length_of_string. }
  assert (Hw : any_Write U k' d w1 = wrap_Write U k' d w1) by (unfold any_Write; by rewrite Hk1).
  unfold wrap_Write, wbind in Hw. rewrite (MaybeWriteHeader_run U) in Hw. change ((100 <=? StatusOK) && (StatusOK <=? 999)) with true in Hw. rewrite Hk1 in Hw. cbn [ww_status] in Hw. replace (code =? 0) with false in Hw by lia.
  unfold wget in Hw. rewrite Hk1 in Hw. cbn [ww_status ww_isHEAD ww_next] in Hw. change StatusNoContent with 204 in Hw.
  destruct (isHEAD || (code =? 204)) eqn:Hbl.
  - destruct Hwr as (-> & -> & ->).
    destruct (one_request s k u h Y new _ (zlen d) code isHEAD v1 w1 (zlen d) None _ Hs Hk Hmap HY (new_bytes new d Hnew Hd) (long_bytes d) ltac:(unfold zlen; lia) Hcode Hwh
      (written_bytes d k' w1 w1 (zlen d) None Hw ltac:(unfold zlen; lia)) Hk1 eq_refl) as (s' & H1 & H2 & H3 & H4 & H5 & H6).
    exists s'. rewrite app_nil_r. done.
  - destruct Hwr as (Hwr & Hn). unfold raw_Write in Hw. change (v_v w1) with v1 in Hw. rewrite Hwr in Hw. unfold wassert in Hw. replace (n >=? 0) with true in Hw by lia. unfold wret in Hw at 1.
    change (v_objs (note w1 v2 (UWrite (Some k') u d (inl (n, e))))) with (v_objs w1) in Hw. rewrite Hk1 in Hw. cbn [wput ww_bytes] in Hw.
    assert (Hwrap : wrap64 (0 + n) = n) by (rewrite Z.add_0_l; apply RunFacts.wrap64_id; unfold min_i64, max_i64, max_slice in *; lia). rewrite Hwrap in Hw.
    unfold wret in Hw. match type of Hw with _ = (?w', _) => set (w2 := w') in * end.
    assert (Hk2 : exists y', v_objs w2 !! k' = Some (WWrap y') /\ ww_status y' = code /\ ww_bytes y' = n).
    { unfold w2. cbn. rewrite list_lookup_insert by (rewrite app_length; cbn; unfold k'; lia). eexists. split; [reflexivity|]. by destruct e. }
    destruct Hk2 as (y' & Hk2 & Hst2 & Hb2).
    destruct (one_request s k u h Y new _ (zlen d) code isHEAD v1 w2 n e y' Hs Hk Hmap HY (new_bytes new d Hnew Hd) (long_bytes d) ltac:(unfold zlen; lia) Hcode Hwh
      (written_bytes d k' w1 w2 n e Hw Hn) Hk2 Hst2) as (s' & H1 & H2 & H3 & H4 & H5 & H6).
    exists s'. split; [exact H1|]. split; [exact H2|]. split; [rewrite H3; cbn; by rewrite <- !app_assoc|]. split; [exact H4|]. split; [exact H5|]. by rewrite H6, Hb2.
Qed.

Theorem empty s k u h Y new code isHEAD v1 :
  treaches U fuel s -> target s k = Some (None, u) -> u_map U (v_v (world s)) u = h -> view s h = Some Y ->
  holding new [] \/ new = NewEmpty -> 200 <= code <= 999 ->
  u_writeheader U (v_v (world s)) u code = (v1, None) ->
  let k' : wid := length (v_objs (world s)) in
  exists s', texec U fuel (TServe (reply_with new code) (Some k) isHEAD) s = (s', match onpanic U v1 (Some EOF) with (_, Some p) => OPanic p | _ => ORet YUnit end) /\
    v_v (world s') = (onpanic U v1 (Some EOF)).1 /\
    wlog s' = wlog s ++ [UAsked k' code; UHeader (Some k') u code None] /\
    view s' h = Some (plain_header 0 ∪ Y) /\ (forall m X, m <> h -> view s m = Some X -> view s' m = Some X) /\
    s_met s' = s_met s ++ counted_as (itoa code) 0 (Some EOF).
Proof.
  intros Hs%treaches_swf Ht Hmap HY Hnew Hcode Hwh k'.
  unfold target in Ht. destruct (v_objs (world s) !! k) as [[|u'|]|] eqn:Hk; try done. injection Ht as ->.
  set (w1 := after_header (world s) u isHEAD code v1).
  assert (Hk1 : v_objs w1 !! k' = Some (WWrap {| ww_kind := if is_fancy (u_caps U u) then KFancy else if wc_flusher (u_caps U u) then KFlush else KBasic;
                                     ww_next := u; ww_bytes := 0; ww_status := code; ww_isHEAD := isHEAD; ww_sawError := false |})) by (cbn; by apply list_lookup_middle).
  destruct (one_request s k u h Y new _ 0 code isHEAD v1 w1 0 (Some EOF) _ Hs Hk Hmap HY (new_empty new Hnew) long_empty ltac:(lia) Hcode Hwh
    (written_empty k' w1) Hk1 eq_refl) as (s' & H1 & H2 & H3 & H4 & H5 & H6).
  exists s'. done.
Qed.
End A.
