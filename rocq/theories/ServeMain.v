(** * Response.Serve: headers, pushes and closing (theorems) *)
From stdpp Require Import gmap.
From Coq Require Import ZifyBool.
From Verif Require Import ServeSpec RespFacts ServeProofs ViewFacts Own.

(** ** Close *)
Section Close.
Context {W : Type} (E : env W) (fuel : nat).
Definition closing (i : nat) {A} (m : prog A) : Prop := forall h h' a, run E h m = (h', ORet a) -> exists b, h_b h' !! i = Some b /\ shut b = true.
Lemma closing_bind i {A B} (m : prog A) (k : A -> prog B) : (forall a, closing i (k a)) -> closing i (bind m k).
Proof. intros Hk h h' b. rewrite run_bind. destruct (run E h m) as [h1 [a|e|]]; [apply Hk|done|done]. Qed.
Definition keeping (i : nat) {A} (m : prog A) : Prop := forall h h' o b, run E h m = (h', o) -> h_b h !! i = Some b -> h_b h' !! i = Some b.
Lemma keep_bind i {A B} (m : prog A) (k : A -> prog B) : keeping i m -> (forall a, keeping i (k a)) -> keeping i (bind m k).
Proof. intros Hm Hk h h' o b. rewrite run_bind. destruct (run E h m) as [h1 [a|e|]] eqn:H; intros H' Hi; [|injection H' as <- <-; by eapply Hm..]. eapply Hk; [done|]. by eapply Hm. Qed.
Lemma keep_ret i {A} (a : A) : keeping i (Ret a).
Proof. intros h h' o b [= <- <-]. done. Qed.
Lemma keep_locked i {A} l (m : prog A) : keeping i m -> keeping i (locked l m).
Proof. intros H h h' o b. rewrite run_locked. apply H. Qed.
Lemma keep_opt i {A} e (o : option A) : keeping i (of_option e o).
Proof. intros h h' x b. destruct o; by intros [= <- <-]. Qed.
Lemma keep_ldS i c : keeping i (ldSeekerC c).
Proof. intros h h' x b. cbn. repeat case_match; simplify_eq/=; repeat case_match; by intros [= <- <-]. Qed.
Lemma keep_ldR i c : keeping i (ldReaderAtC c).
Proof. intros h h' x b. cbn. repeat case_match; simplify_eq/=; repeat case_match; by intros [= <- <-]. Qed.
Lemma keep_StoreC i c x : keeping i (perform (StoreC c x)).
Proof. intros h h' o b. cbn. repeat case_match; simplify_eq/=; by intros [= <- <-]. Qed.
Lemma keep_Caps i c : keeping i (perform (Caps c)).
Proof. intros h h' o b. cbn. repeat case_match; simplify_eq/=; by intros [= <- <-]. Qed.
Lemma keep_Close i c : keeping i (perform (CallClose c)).
Proof. intros h h' o b. cbn. repeat case_match; simplify_eq/=; by intros [= <- <-]. Qed.
Ltac kgo := repeat first [progress cbv zeta|apply keep_ldS|apply keep_ldR|apply keep_bind; [|intros ?]|apply keep_ret|apply keep_StoreC|apply keep_Caps|apply keep_Close|apply keep_opt|apply keep_locked
  | match goal with |- keeping _ (if ?b then _ else _) => destruct b | |- keeping _ (match ?b with _ => _ end) => destruct b end].
Lemma closing_store i x {A} (m : prog A) : shut x = true -> keeping i m -> closing i (bind (perform (StoreB i x)) (fun _ => m)).
Proof.
  intros Hx Hm h h' a. rewrite run_bind. cbn. destruct (h_b h !! i) as [b|] eqn:Hi; [|done]. intros H. exists x. split; [|done]. eapply Hm; [exact H|].
  cbn. rewrite list_lookup_insert; [done|]. by eapply lookup_lt_Some.
Qed.
Lemma close_shut h i h' e : exec E fuel h (Call i Close) = (h', ORet (RErr e)) -> exists b, h_b h' !! i = Some b /\ shut b = true.
Proof.
  unfold exec, cmd_prog. destruct (h_b h !! i) as [b|] eqn:Hi; [|done].
  assert (Hrerr : forall m : prog (option error), (forall h' a, run E h m = (h', ORet a) -> exists b, h_b h' !! i = Some b /\ shut b = true) ->
    forall h', run E h (rerr m) = (h', ORet (RErr e)) -> exists b, h_b h' !! i = Some b /\ shut b = true).
  { intros m Hm h1. rewrite run_rerr. destruct (run E h m) as [h2 [a|p|]]; intros [= <- <-]. by eapply Hm. }
  destruct b as [|b|b|b|b|b]; cbn [method]; apply Hrerr; intros h1 a; clear Hrerr.
  - intros [= <- <-]. rewrite Hi. by eexists.
  - cbn. rewrite Hi. cbn. destruct (em_closed b) eqn:Hc; cbn; [intros [= <- <-]; rewrite Hi; eexists; split; [done|exact Hc]|]. rewrite Hi. intros [= <- <-]. eexists. split.
    { cbn. rewrite list_lookup_insert; [done|]. by eapply lookup_lt_Some. } done.
  - cbn. rewrite Hi. cbn. destruct (by_closed b) eqn:Hc; cbn; [intros [= <- <-]; rewrite Hi; eexists; split; [done|exact Hc]|]. rewrite Hi. intros [= <- <-]. eexists. split.
    { cbn. rewrite list_lookup_insert; [done|]. by eapply lookup_lt_Some. } done.
  - unfold seeker_Close. rewrite run_locked, run_bind, (run_ldSeeker E h i b Hi). destruct (sb_closed b) eqn:Hc; [intros [= <- <-]; rewrite Hi; eexists; split; [done|exact Hc]|].
    apply closing_store; [done|]. unfold seeker_unref. kgo. 
  - unfold readerAt_Close. rewrite run_locked, run_bind, (run_ldReaderAt E h i b Hi). destruct (rb_closed b) eqn:Hc; [intros [= <- <-]; rewrite Hi; eexists; split; [done|exact Hc]|].
    apply closing_store; [done|]. unfold readerAt_unref. kgo.
  - unfold buffered_Close. rewrite run_locked, run_bind, (run_ldBuffered E h i b Hi). destruct (bb_closed b) eqn:Hc; [intros [= <- <-]; rewrite Hi; eexists; split; [done|exact Hc]|].
    apply closing_bind. intros c. apply closing_bind. intros err. apply closing_store; [done|]. kgo.
Qed.
End Close.

Section Serve.
Context {V : Type} (U : uenv V) (fuel : nat).
Implicit Types s : state V.

Lemma texec_serve s r x k : s_rps s !! r = Some x ->
  texec U fuel (TDo (RServe r k)) s = match rp_Serve U fuel x k s with
    | (s', ORet e) => (s', ORet (YErr e)) | (s', OPanic p) => (s', OPanic p) | (s', OSpin) => (s', OSpin) end.
Proof. intros Hr. cbn. unfold ybind, the_rp. rewrite Hr. destruct (rp_Serve _ _ _ _ _) as [s' []]; done. Qed.

Lemma push_events_app by_ u l l' : push_events by_ u (l ++ l') = push_events by_ u l ++ push_events by_ u l'.
Proof. apply map_app. Qed.
Lemma ordinary_push e : ordinary e -> ~ is_push e.
Proof. destruct e; cbn; tauto. Qed.
Lemma asked_push by_ st : Forall (fun e => ~ is_push e) (asked by_ st).
Proof. destruct by_; repeat constructor; cbn; tauto. Qed.

Theorem pushes : forall s r x k by_ u s' o,
  s_rps s !! r = Some x -> target s k = Some (by_, u) -> texec U fuel (TDo (RServe r k)) s = (s', o) ->
  exists l e tail,
    wlog s' = wlog s ++ push_events by_ u l ++ tail /\ Forall (fun e => ~ is_push e) tail /\
    (if wc_pusher (u_caps U u) then pushing (push_urls s x) l e else l = [] /\ e = None) /\
    match e with
    | None => True
    | Some (inl err) => o = ORet (YErr (Some err)) /\ tail = [] /\ s_maps s' = s_maps s
    | Some (inr p) => o = OPanic p /\ tail = [] /\ s_maps s' = s_maps s
    end.
Proof.
  intros s r x k by_ u s' o Hr Ht. rewrite (texec_serve s r x k Hr).
  destruct (serve_pushes U fuel s x k by_ u Ht) as (s1 & l & e & Ho & Hl & Hp & ->).
  assert (Hm : s_maps s1 = s_maps s) by (destruct Ho as (w & -> & _); done). intros H. exists l, e.
  destruct e as [[err|p]|].
  - injection H as <- <-. exists []. rewrite app_nil_r. done.
  - injection H as <- <-. exists []. rewrite app_nil_r. done.
  - destruct (serve_rest U fuel x k s1) as [s2 o2] eqn:Hs2. assert (s' = s2) as -> by (by destruct o2; injection H as <- <-).
    pose proof (ow_target _ _ k Ho) as Ht1. rewrite Ht in Ht1.
    destruct (rest_run U fuel s1 x k by_ u s2 o2 Ht1 Hs2) as [(Hl2 & _)|(h & hdrs & s3 & w & ow & _ & _ & _ & _ & [(_ & Hw & ->)|(res & tail & _ & _ & Hl2 & Hf & _)])].
    + exists []. rewrite app_nil_r, Hl2. done.
    + exists (asked by_ (rp_code x)). split; [unfold wlog at 1, world; cbn; by rewrite Hw, Hl, <- app_assoc|]. split; [apply asked_push|done].
    + eexists (asked by_ (rp_code x) ++ UHeader by_ u (rp_code x) res :: tail). split; [by rewrite Hl2, Hl, <- app_assoc|]. split; [|done].
      apply Forall_app. split; [apply asked_push|]. constructor; [cbn; tauto|]. eapply Forall_impl; [exact Hf|]. apply ordinary_push.
Qed.

Theorem headers : forall s r x k by_ u h X Y s' o new,
  s_rps s !! r = Some x -> target s k = Some (by_, u) -> (forall v, u_map U v u = h) ->
  hview s (rp_hdrs x) = Some X -> view s h = Some Y ->
  serving U fuel s r k s' o new -> status_sent new ->
  (exists l res tail, new = push_events by_ u l ++ asked by_ (rp_code x) ++ UHeader by_ u (rp_code x) res :: tail /\ Forall ordinary tail) /\
  view s' h = Some (delete "Push" X ∪ Y) /\
  (forall m, m <> h -> view s' m = view s m).
Proof.
  intros s r x k by_ u h X Y s' o new Hr Ht Hu HX HY [H Hnew] (by1 & u1 & st1 & res1 & Hin). rewrite (texec_serve s r x k Hr) in H.
  destruct (serve_pushes U fuel s x k by_ u Ht) as (s1 & l & e & Ho & Hl & Hp & Hs). rewrite Hs in H.
  assert (Hnp : forall l, UHeader by1 u1 st1 res1 ∈ push_events by_ u l -> False).
  { intros l0. unfold push_events. rewrite elem_of_list_fmap. intros ([] & ? & _). done. }
  destruct e as [[err|p]|].
  { injection H as <- <-. rewrite Hl in Hnew. apply app_inv_head in Hnew as <-. by apply Hnp in Hin. }
  { injection H as <- <-. rewrite Hl in Hnew. apply app_inv_head in Hnew as <-. by apply Hnp in Hin. }
  destruct (serve_rest U fuel x k s1) as [s2 o2] eqn:Hs2. assert (s' = s2) as -> by (by destruct o2; injection H as <- <-).
  pose proof (ow_target _ _ k Ho) as Ht1. rewrite Ht in Ht1.
  destruct (rest_run U fuel s1 x k by_ u s2 o2 Ht1 Hs2) as [(Hl2 & _)|(h' & hdrs & s3 & w & ow & -> & Hm & Hc & _ & [(_ & Hw & ->)|(res & tail & _ & _ & Hl2 & Hf & M1 & M2 & _)])].
  - rewrite Hl2, Hl in Hnew. apply app_inv_head in Hnew as <-. by apply Hnp in Hin.
  - unfold wlog at 1, world in Hnew. cbn in Hnew. rewrite Hw, Hl, <- app_assoc in Hnew. apply app_inv_head in Hnew as <-.
    apply elem_of_app in Hin as [Hin|Hin]; [by apply Hnp in Hin|]. destruct by_; cbn in Hin; [|by apply elem_of_nil in Hin].
    apply elem_of_list_singleton in Hin. done.
  - rewrite Hl2, Hl, <- app_assoc in Hnew. apply app_inv_head in Hnew as <-. split; [by eexists _, _, _|].
    rewrite Hu in Hc.
    assert (Hv : forall m, view s1 m = view s m) by (destruct Ho as (w0 & -> & _); done).
    assert (Hx : contents_of (s_arrs s1) <$> hdrs = X).
    { assert (Ha : s_arrs s1 = s_arrs s) by (destruct Ho as (w0 & -> & _); done). unfold map_or_nil in Hm. unfold hview in HX. destruct (rp_hdrs x) as [m|].
      - unfold the_map in Hm. rewrite <- Hv in HX. unfold view in HX. destruct (s_maps s1 !! m); [|done]. injection Hm as <-. by injection HX.
      - injection Hm as <-. injection HX as <-. by rewrite fmap_empty. }
    destruct (copy_to_view s1 h hdrs Y) as (maps' & Hc' & V1 & V2); [by rewrite Hv|]. rewrite Hc in Hc'. injection Hc' as ->.
    rewrite Hx in V1. assert (Hv2 : forall m, view s2 m = view (put_maps s1 maps') m) by (intros m; unfold view; by rewrite M1, M2).
    split; [by rewrite Hv2|]. intros m Hne. rewrite Hv2, V2 by done. apply Hv.
Qed.

Lemma shut_uexec h i b f :
  h_b h !! i = Some b -> shut b = true -> uexec U fuel h (Call i f) = (h, ORet (if has_method b f then closed_answer f else RNoMethod)).
Proof. intros Hi Hs. apply uexec_unlogged; [by apply shut_exec|done]. Qed.
Lemma shut_is_closed s i b : h_b (s_h s) !! i = Some b -> shut b = true -> is_closed U fuel s i.
Proof.
  intros Hi Hs. exists b. split; [done|]. intros f. cbn. unfold body_cmd, ybind. rewrite (shut_uexec _ i b f Hi Hs). unfold put_h. by destruct s.
Qed.
Theorem closes : forall s r x k by_ u s' e new,
  s_rps s !! r = Some x -> target s k = Some (by_, u) -> serving U fuel s r k s' (ORet (YErr e)) new ->
  (exists i, rp_body x = Some i /\ is_closed U fuel s' i) \/
  (exists l err, new = push_events by_ u l /\ pushing (push_urls s x) l (Some (inl err)) /\ e = Some err).
Proof.
  intros s r x k by_ u s' e new Hr Ht [H Hnew]. rewrite (texec_serve s r x k Hr) in H.
  destruct (serve_pushes U fuel s x k by_ u Ht) as (s1 & l & pe & Ho & Hl & Hp & Hs). rewrite Hs in H.
  destruct pe as [[err|p]|].
  - injection H as <- <-. right. rewrite Hl in Hnew. apply app_inv_head in Hnew as <-. exists l, err. split; [done|].
    destruct (wc_pusher _); [done|]. by destruct Hp.
  - done.
  - left. destruct (serve_rest U fuel x k s1) as [s2 [e2| |]] eqn:Hs2; try done. injection H as <- <-. unfold serve_rest in Hs2.
    apply ybind_ret in Hs2 as (s3 & h & _ & Hs2). apply ybind_ret in Hs2 as (s4 & hdrs & _ & Hs2). apply ybind_ret in Hs2 as (s5 & [] & _ & Hs2).
    apply ybind_ret in Hs2 as (s6 & [] & _ & Hs2). apply ybind_ret in Hs2 as (s7 & [n err] & _ & Hs2). apply ybind_ret in Hs2 as (s8 & y & Hc & Hs2).
    unfold body_call, of_opt in Hc. destruct (rp_body x) as [i|]; [|done]. exists i. split; [done|]. unfold ybind, yret, body_cmd in Hc.
    destruct (uexec U fuel (s_h s7) (Call i Close)) as [h8 o8] eqn:He. injection Hc as <- ->. apply uexec_ret in He. destruct y; try done. injection Hs2 as <- _.
    destruct (close_shut (wenv U) fuel _ _ _ _ He) as (b & Hb & Hsh). by eapply shut_is_closed.
Qed.
End Serve.

(** ** The body stays open if a push fails, and if WriteHeader panics *)
From Verif Require Import WitnessResp.
Definition pushing_web : uenv (list nat) :=
  web [] (fun _ => all_caps) accepts (fun url => if String.eqb url "/bad" then Some (External 5) else if String.eqb url "/no" then Some ErrNotSupported else None) reads_once.
Definition with_body (hs : list (string * string)) : list rcmd :=
  [RB (NewString "abc"); RNewBuilder] ++ map (fun h => RBuilder 0 (WithHeader h.1 h.2 true)) hs ++ [RBuilder 0 (WithBody (Some 1%nat)); RBuild 0].
Theorem push_leaves_open :
  exists (V : Type) (U : uenv V) fuel s r x k by_ u s' err new i n,
    treaches U fuel s /\ s_rps s !! r = Some x /\ target s k = Some (by_, u) /\
    serving U fuel s r k s' (ORet (YErr (Some err))) new /\ rp_body x = Some i /\ 0 < n /\
    texec U fuel (TDo (RB (Call i BytesRemaining))) s' = (s', ORet (YBody (RInt n))).
Proof.
  set (s := after pushing_web 9 (start [] 1) (map TDo (with_body [("Push", "/bad")]))).
  eexists _, pushing_web, 9%nat, s, 0%nat, _, 1%nat, _, _, _, _, _, _, 3. split; [apply after_reaches|].
  split; [by vm_compute|]. split; [by vm_compute|]. split; [split; [vm_compute; reflexivity|vm_compute; reflexivity]|]. split; [by vm_compute|]. split; [done|]. by vm_compute.
Qed.
Theorem panic_leaves_open :
  exists (V : Type) (U : uenv V) fuel s r x k by_ u s' new i n,
    treaches U fuel s /\ s_rps s !! r = Some x /\ target s k = Some (by_, u) /\
    serving U fuel s r k s' (OPanic PAssert) new /\ rp_body x = Some i /\ 0 < n /\
    texec U fuel (TDo (RB (Call i BytesRemaining))) s' = (s', ORet (YBody (RInt n))).
Proof.
  set (s := after pushing_web 9 (start [] 1) (map TDo (with_body [] ++ [RNewWriter (Some 1%nat) false; RWriter 2 (WWriteHeader 200)]))).
  eexists _, pushing_web, 9%nat, s, 0%nat, _, 2%nat, _, _, _, _, _, 3. split; [apply after_reaches|].
  split; [by vm_compute|]. split; [by vm_compute|]. split; [split; [vm_compute; reflexivity|vm_compute; reflexivity]|]. split; [by vm_compute|]. split; [done|]. by vm_compute.
Qed.
(** ** The Reader is never closed if its Read panics *)
Definition exploding_web : uenv (list nat) :=
  with_hazard (web [hello plain 4] (fun _ => no_caps) accepts (fun _ => None) reads_once)
    (fun w c => match c with XRead _ _ => if (nth 0 w 0 =? 4)%nat then Some (w, PUser 7) else None | _ => None end).
Theorem reader_panic_leaves_open :
  exists (V : Type) (U : uenv V) fuel s r x k by_ u s' e new i n rd v p v',
    treaches U fuel s /\ s_rps s !! r = Some x /\ target s k = Some (by_, u) /\
    serving U fuel s r k s' (OPanic e) new /\ u_hazard U v (XRead rd p) = Some (v', e) /\
    rp_body x = Some i /\ 0 < n /\
    texec U fuel (TDo (RB (Call i BytesRemaining))) s' = (s', ORet (YBody (RInt n))) /\
    cp_closer (ev_caps (u_env U) rd) = true /\ Forall not_close (calls_on rd (h_log (s_h s'))).
Proof.
  set (s := after exploding_web 9 (start [hello plain 4] 1) (map TDo [RB (NewReaderLen 0 11); RNewBuilder; RBuilder 0 (WithBody (Some 1%nat)); RBuild 0])).
  eexists _, exploding_web, 9%nat, s, 0%nat, _, 1%nat, _, _, _, _, _, _, 11, 0%nat, [4%nat], [], _. split; [apply after_reaches|].
  split; [by vm_compute|]. split; [by vm_compute|]. split; [split; [vm_compute; reflexivity|vm_compute; reflexivity]|]. split; [reflexivity|]. split; [by vm_compute|]. split; [done|].
  split; [by vm_compute|]. split; [done|]. vm_compute. repeat constructor.
Qed.
