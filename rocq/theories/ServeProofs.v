(** * Response.Serve: headers, pushes and closing (proofs) *)
From stdpp Require Import gmap.
From Coq Require Import ZifyBool.
From Verif Require Import ServeSpec RespFacts WriterProofs WriterMain HdrFacts ViewFacts Own.

Section Serve.
Context {V : Type} (U : uenv V) (fuel : nat).
Implicit Types s : state V.

(** ** What happens while the body is copied *)
(** Nothing changes but Bodies, the world and the log, which gets no push and no
    explicit WriteHeader. *)
Definition bR s s' : Prop :=
  s_maps s' = s_maps s /\ s_arrs s' = s_arrs s /\ s_bds s' = s_bds s /\ s_rps s' = s_rps s /\ s_met s' = s_met s /\
  exists l, wlog s' = wlog s ++ l /\ Forall ordinary l.
Global Instance bR_refl : Reflexive bR.
Proof. intros s. repeat split. exists []. by rewrite app_nil_r. Qed.
Global Instance bR_trans : Transitive bR.
Proof.
  intros s1 s2 s3 (? & ? & ? & ? & ? & l1 & L1 & F1) (? & ? & ? & ? & ? & l2 & L2 & F2). repeat split; try congruence.
  exists (l1 ++ l2). rewrite L2, L1, app_assoc. split; [done|]. by apply Forall_app.
Qed.
Definition wp {A} (m : wm A) : Prop := forall w : wst V, exists l, v_log (m w).1 = v_log w ++ l /\ Forall ordinary l.
Lemma wp_still {A} (m : wm A) : (forall w, v_log (m w).1 = v_log w) -> wp m.
Proof. intros H w. exists []. by rewrite app_nil_r. Qed.
Lemma wp_bind {A B} (m : wm A) (k : A -> wm B) : wp m -> (forall a, wp (k a)) -> wp (wbind m k).
Proof.
  intros Hm Hk w. unfold wbind. destruct (Hm w) as (l1 & H1 & F1). destruct (m w) as [w' [a|e]]; cbn in *; [|eauto].
  destruct (Hk a w') as (l2 & H2 & F2). exists (l1 ++ l2). rewrite H2, H1, app_assoc. split; [done|]. by apply Forall_app.
Qed.
Lemma wp_get k : wp (wget k).
Proof. apply wp_still. intros w. unfold wget. by destruct (_ !! _) as [[]|]. Qed.
Lemma wp_put k x : wp (wput k x).
Proof. by apply wp_still. Qed.
Lemma wp_assert b : wp (wassert b).
Proof. apply wp_still. by destruct b. Qed.
Lemma wp_ret {A} (a : A) : wp (wret a).
Proof. by apply wp_still. Qed.
Lemma wp_raw_Write by_ u p : wp (raw_Write U by_ u p).
Proof. intros w. unfold raw_Write. destruct (ev_write _ _ _ _). eexists. split; [reflexivity|]. by repeat constructor. Qed.
Lemma wp_Maybe k st : wp (wrap_MaybeWriteHeader U k st).
Proof.
  intros w. rewrite (MaybeWriteHeader_run U). destruct (_ && _); [|exists []; by rewrite app_nil_r].
  destruct (_ !! _) as [[| |y]|]; try (exists []; by rewrite app_nil_r). destruct (_ =? _); [|exists []; by rewrite app_nil_r].
  destruct (u_writeheader _ _ _ _). eexists. split; [reflexivity|]. by repeat constructor.
Qed.
Lemma wp_any_Write (k : wid) p : wp (any_Write U k p).
Proof.
  intros w. unfold any_Write. destruct (v_objs w !! k) as [[|u|x]|]; try (exists []; by rewrite app_nil_r); [apply wp_raw_Write|].
  apply wp_bind; [apply wp_Maybe|intros _]. apply wp_bind; [apply wp_get|intros y]. destruct (_ || _); [apply wp_ret|].
  apply wp_bind; [apply wp_raw_Write|intros [n err]]. apply wp_bind; [apply wp_assert|intros _]. apply wp_bind; [apply wp_get|intros z].
  apply wp_bind; [apply wp_put|intros _]. apply wp_ret.
Qed.
Lemma b_run {A} (m : prog A) (h : heap (wst V)) :
  exists l, v_log (h_w (xrun (wenv U) (whazard U) h m).1) = v_log (h_w h) ++ l /\ Forall ordinary l.
Proof.
  apply (xrun_world U (fun w w' => exists l, v_log w' = v_log w ++ l /\ Forall ordinary l)).
  - intros w. exists []. by rewrite app_nil_r.
  - intros w1 w2 w3 (l1 & H1 & F1) (l2 & H2 & F2). exists (l1 ++ l2). rewrite H2, H1, app_assoc. split; [done|]. by apply Forall_app.
  - clear h. intros h B a h' x Ha. destruct a; cbn in Ha; repeat case_match; simplify_eq/=; try (exists []; by rewrite app_nil_r).
    match goal with H : any_Write U ?a ?b ?c = _ |- _ => pose proof (wp_any_Write a b c) as Hw; rewrite H in Hw end. done.
  - intros w v. exists []. by rewrite app_nil_r.
Qed.
Lemma b_call b f : pres bR (body_call U fuel b f).
Proof.
  apply pres_bind; [apply _|by apply pres_of_opt; apply _|]. intros i s. unfold body_cmd, uexec, xexec, bR, wlog, world.
  pose proof (b_run (cmd_prog fuel (s_h s) (Call i f)) (s_h s)) as H. destruct (xrun _ _ _ _). done.
Qed.
Lemma b_on_writer {A} (m : wm A) : wp m -> pres bR (on_writer m).
Proof. intros H s. unfold on_writer, bR, wlog. specialize (H (world s)). unfold world in *. destruct (m _) as [w [a|e]]; cbn in *; done. Qed.
Lemma b_readfrom_loop n u b last : pres bR (readfrom_loop U fuel n u b last).
Proof.
  revert last. induction n as [|n IH]; intros last; cbn [readfrom_loop]; [pres_go|]. intros s. cbv zeta. destruct (u_readfrom _ _ _ _) as [v [f|ans]]; cbn.
  - set (s1 := put_h s _). assert (Hs1 : bR s s1) by (repeat split; exists []; by rewrite app_nil_r). etrans; [exact Hs1|]. pose proof (b_call b f s1) as H.
    destruct (body_call U fuel b f s1) as [s2 [r|e|]]; cbn in H; [etrans; [exact H|apply IH]..|done].
  - repeat split. exists []. by rewrite app_nil_r.
Qed.
Lemma b_log_u e : ordinary e -> pres bR (log_u e).
Proof. intros He s. repeat split. exists [e]. split; [done|]. by repeat constructor. Qed.
Lemma b_wput k x : pres bR (on_writer (wput k x)).
Proof. apply b_on_writer, wp_put. Qed.
Lemma b_any_Write k p : pres bR (on_writer (any_Write U k p)).
Proof. apply b_on_writer, wp_any_Write. Qed.
Lemma b_Maybe k st : pres bR (on_writer (wrap_MaybeWriteHeader U k st)).
Proof. apply b_on_writer, wp_Maybe. Qed.
Lemma b_lookup_wrap k : pres bR (lookup_wrap k).
Proof. unfold lookup_wrap. pres_go. Qed.
Local Hint Resolve b_call b_readfrom_loop b_wput b_lookup_wrap b_any_Write b_Maybe : pres.
Lemma b_raw_ReadFrom by_ u b : pres bR (raw_ReadFrom U fuel by_ u b).
Proof. unfold raw_ReadFrom. repeat first [by apply b_log_u|pres1]. Qed.
Lemma b_discard_loop n b buf t : pres bR (discard_loop U fuel n b buf t).
Proof. revert buf t. induction n as [|n IH]; intros; cbn [discard_loop]; cbv zeta; pres_go. Qed.
Lemma b_slice (buf : bytes) nr : pres bR (fun s => match slice buf 0 nr with Some p => (s, ORet p) | None => (s, OPanic PRange) end).
Proof. intros s. by destruct (slice _ _ _). Qed.
Local Hint Resolve b_raw_ReadFrom b_discard_loop b_slice : pres.
Lemma b_copy_loop n k b buf t : pres bR (copy_loop U fuel n k b buf t).
Proof. revert buf t. induction n as [|n IH]; intros; cbn [copy_loop]; cbv zeta; pres_go. Qed.
Lemma b_write_to k b : pres bR (write_to U fuel k b).
Proof. unfold write_to. pres_go. Qed.
Local Hint Resolve b_copy_loop b_write_to : pres.
Lemma b_copy_discard b : pres bR (copy_discard U fuel b).
Proof. unfold copy_discard. pres_go. Qed.
Local Hint Resolve b_copy_discard : pres.
Lemma b_any_ReadFrom k b : pres bR (any_ReadFrom U fuel k b).
Proof. unfold any_ReadFrom, wrap_ReadFrom. pres_go. Qed.
Local Hint Resolve b_any_ReadFrom : pres.
Lemma b_io_Copy k b : pres bR (io_Copy U fuel k b).
Proof. unfold io_Copy. pres_go. Qed.

(** ** Pushing *)
Definition only_world s s' : Prop := exists w, s' = put_h s (heap_w (s_h s) w) /\ v_objs w = v_objs (world s).
Global Instance ow_refl : Reflexive only_world.
Proof. intros s. exists (world s). split; [|done]. destruct s as [[] ? ? ? ? ?]. done. Qed.
Global Instance ow_trans : Transitive only_world.
Proof. intros s1 s2 s3 (w & -> & H1) (w' & -> & H2). exists w'. split; [done|]. etrans; [exact H2|exact H1]. Qed.
Lemma ow_target s s' k : only_world s s' -> target s' k = target s k.
Proof. intros (w & -> & H). unfold target, world in *. cbn. by rewrite H. Qed.
Lemma ow_lookup s s' (k : wid) : only_world s s' -> v_objs (world s') !! k = v_objs (world s) !! k.
Proof. intros (w & -> & H). unfold world in *. cbn. by rewrite H. Qed.

Lemma push_one s k by_ u url :
  target s k = Some (by_, u) -> (by_ = None -> wc_pusher (u_caps U u) = true) ->
  exists s' x, only_world s s' /\
    any_Push U k url s = (s', match x with inl e => ORet e | inr p => OPanic p end) /\
    if wc_pusher (u_caps U u) then wlog s' = wlog s ++ [UPush by_ u url x] else s' = s /\ x = inl (Some ErrNotSupported).
Proof.
  unfold target. intros Ht Hp. unfold any_Push, ybind at 1, lookup_w at 1. fold (world s). destruct (v_objs (world s) !! k) as [[|u'|y]|] eqn:Hk; try done.
  - injection Ht as <- <-. rewrite Hp by done. unfold on_writer, raw_Push. fold (world s). destruct (u_push U _ u' url) as [v x].
    eexists _, x. split; [|split; [by destruct x|done]]. by eexists.
  - injection Ht as <- <-. unfold on_writer. fold (world s). unfold wrap_Push, wbind, wget. rewrite Hk. cbn. destruct (wc_pusher _) eqn:Hc.
    + unfold raw_Push. destruct (u_push U _ _ url) as [v x]. eexists _, x. split; [|split; [by destruct x|done]]. by eexists.
    + eexists s, _. split; [done|]. split; [|done]. unfold wret. f_equal. destruct s as [[] ? ? ? ? ?]. done.
Qed.
Lemma push_run s k by_ u urls :
  target s k = Some (by_, u) -> (by_ = None -> wc_pusher (u_caps U u) = true) ->
  exists s' l e, only_world s s' /\
    push_all U k urls s = (s', match e with None => ORet None | Some (inl e) => ORet (Some e) | Some (inr p) => OPanic p end) /\
    wlog s' = wlog s ++ push_events by_ u l /\
    if wc_pusher (u_caps U u) then pushing urls l e else l = [] /\ e = None.
Proof.
  revert s. induction urls as [|url urls IH]; intros s Ht Hp; cbn [push_all].
  { exists s, [], None. split; [done|]. split; [done|]. split; [by rewrite app_nil_r|]. destruct (wc_pusher _); [constructor|done]. }
  destruct (push_one s k by_ u url Ht Hp) as (s1 & x & Ho & Hx & Hc). unfold ybind. rewrite Hx.
  assert (Hgo : exists s' l e, only_world s s' /\
    push_all U k urls s1 = (s', match e with None => ORet None | Some (inl e) => ORet (Some e) | Some (inr p) => OPanic p end) /\
    wlog s' = wlog s1 ++ push_events by_ u l /\ if wc_pusher (u_caps U u) then pushing urls l e else l = [] /\ e = None).
  { destruct (IH s1) as (s' & l & e & H1 & H2 & H3 & H4); [by rewrite (ow_target s)|done|]. exists s', l, e. split; [by etrans|]. done. }
  destruct Hgo as (s' & l & e & H1 & H2 & H3 & H4). destruct (wc_pusher (u_caps U u)) eqn:Hpu.
  - destruct x as [[err|]|p].
    + destruct (errors_Is err ErrNotSupported) eqn:He; cbn [negb].
      * exists s', ((url, inl (Some err)) :: l), e. split; [done|]. split; [done|]. split; [by rewrite H3, Hc, <- app_assoc|]. by constructor.
      * exists s1, [(url, inl (Some err))], (Some (inl err)). split; [done|]. split; [done|]. split; [done|]. by constructor.
    + exists s', ((url, inl None) :: l), e. split; [done|]. split; [done|]. split; [by rewrite H3, Hc, <- app_assoc|]. by constructor.
    + exists s1, [(url, inr p)], (Some (inr p)). split; [done|]. split; [done|]. split; [done|]. by constructor.
  - destruct Hc as [-> ->]. destruct H4 as [-> ->]. cbn. exists s', [], None. done.
Qed.

(** ** Serve, step by step *)
(** What follows the pushes. *)
Definition serve_rest (x : response) (k : wid) : M (V:=V) (option error) :=
  ybind (any_Header U k) (fun h =>
  ybind (map_or_nil (rp_hdrs x)) (fun hdrs =>
  ybind (copy_to h hdrs) (fun _ =>
  ybind (any_WriteHeader U k (rp_code x)) (fun _ =>
  ybind (io_Copy U fuel k (rp_body x)) (fun '(_, err) =>
  ybind (body_call U fuel (rp_body x) Close) (fun r =>
  match r with
  | RErr err2 => yret (match err with None => err2 | _ => err end)
  | _ => mpanic PNil
  end)))))).
Lemma serve_pushes s x k by_ u :
  target s k = Some (by_, u) ->
  exists s1 l e, only_world s s1 /\ wlog s1 = wlog s ++ push_events by_ u l /\
    (if wc_pusher (u_caps U u) then pushing (push_urls s x) l e else l = [] /\ e = None) /\
    rp_Serve U fuel x k s = match e with
      | None => serve_rest x k s1
      | Some (inl err) => (s1, ORet (Some err))
      | Some (inr p) => (s1, OPanic p)
      end.
Proof.
  intros Ht. assert (Hk : exists o, v_objs (world s) !! k = Some o /\ any_Pusher U o = (match by_ with None => wc_pusher (u_caps U u) | _ => true end)).
  { unfold target in Ht. destruct (v_objs (world s) !! k) as [[|u'|y]|]; try done; injection Ht as <- <-; eexists; split; done. }
  destruct Hk as (o & Hk & Ho).
  assert (Hnone : wc_pusher (u_caps U u) = false -> by_ = None -> exists s1 l e, only_world s s1 /\ wlog s1 = wlog s ++ push_events by_ u l /\
    (if wc_pusher (u_caps U u) then pushing (push_urls s x) l e else l = [] /\ e = None) /\
    rp_Serve U fuel x k s = match e with None => serve_rest x k s1 | Some (inl err) => (s1, ORet (Some err)) | Some (inr p) => (s1, OPanic p) end).
  { intros Hc ->. exists s, [], None. split; [done|]. split; [by rewrite app_nil_r|]. rewrite Hc. split; [done|].
    unfold rp_Serve. unfold ybind at 1. unfold lookup_w at 1. fold (world s). rewrite Hk, Ho, Hc. done. }
  destruct (decide (by_ = None -> wc_pusher (u_caps U u) = true)) as [Hp|Hp].
  2: { destruct (wc_pusher (u_caps U u)); [by destruct Hp|]. destruct by_; [by destruct Hp|]. by apply Hnone. }
  clear Hnone. assert (Ho' : any_Pusher U o = true) by (rewrite Ho; destruct by_; [done|by apply Hp]).
  unfold rp_Serve. unfold ybind at 1. unfold lookup_w at 1. fold (world s). rewrite Hk, Ho'.
  destruct (hview s (rp_hdrs x)) as [X|] eqn:HX.
  - assert (Hm : exists hdrs, map_or_nil (rp_hdrs x) s = (s, ORet hdrs) /\ contents_of (s_arrs s) <$> hdrs = X).
    { unfold map_or_nil, hview in *. destruct (rp_hdrs x) as [m|]; [|exists ∅; split; [done|]; rewrite fmap_empty; by injection HX].
      unfold view in HX. unfold the_map. destruct (s_maps s !! m) as [hdrs|]; [|done]. exists hdrs. split; [done|]. by injection HX. }
    destruct Hm as (hdrs & Hm & HX').
    assert (Hu : contents_of (s_arrs s) (default nil_slice (hdrs !! headerPush)) = push_urls s x).
    { unfold push_urls. rewrite HX, <- HX', lookup_fmap. change headerPush with "Push". destruct (hdrs !! "Push"); done. }
    destruct (push_run s k by_ u (push_urls s x) Ht Hp) as (s1 & l & e & H1 & H2 & H3 & H4).
    exists s1, l, e. split; [done|]. split; [done|]. split; [done|].
    unfold ybind at 1. unfold ybind at 1. rewrite Hm. unfold ybind at 1. unfold contents at 1. rewrite Hu, H2.
    destruct e as [[]|]; done.
  - exists s, [], None. split; [done|]. split; [by rewrite app_nil_r|]. split.
    { destruct (wc_pusher _); [|done]. unfold push_urls. rewrite HX. constructor. }
    assert (Hm : map_or_nil (rp_hdrs x) s = (s, OPanic PNil)).
    { unfold map_or_nil, hview, view in *. destruct (rp_hdrs x) as [m|]; [|done]. unfold the_map. by destruct (s_maps s !! m). }
    assert (Hh : exists m, any_Header U k s = (s, ORet m)).
    { unfold any_Header. fold (world s). rewrite Hk. unfold target in Ht. rewrite Hk in Ht. destruct o; [done|eauto..]. }
    destruct Hh as [m Hh]. unfold serve_rest. unfold ybind. rewrite Hh, Hm. done.
Qed.

(** *** The header *)
Lemma copy_to_view s h hdrs Y :
  view s h = Some Y ->
  exists maps', copy_to h hdrs s = (put_maps s maps', ORet tt) /\
    view (put_maps s maps') h = Some (delete "Push" (contents_of (s_arrs s) <$> hdrs) ∪ Y) /\
    forall m, m <> h -> view (put_maps s maps') m = view s m.
Proof.
  intros (y & Hy & ->)%view_lookup. unfold copy_to. change headerPush with "Push". case_bool_decide as He.
  - exists (s_maps s). assert (Hs : put_maps s (s_maps s) = s) by (by destruct s). rewrite Hs. split; [done|]. split; [|done].
    unfold view. rewrite Hy. f_equal. rewrite <- fmap_delete, He, fmap_empty. by rewrite (left_id_L ∅ (∪)).
  - unfold ybind, the_map. rewrite Hy. unfold put_map. eexists. split; [reflexivity|]. unfold view. cbn. split.
    + rewrite list_lookup_insert by (by eapply lookup_lt_Some). f_equal. by rewrite map_fmap_union, fmap_delete.
    + intros m Hne. by rewrite list_lookup_insert_ne.
Qed.
Lemma copy_to_log s h hdrs : exists maps', (copy_to h hdrs s).1 = put_maps s maps'.
Proof.
  assert (Hs : s = put_maps s (s_maps s)) by (by destruct s). unfold copy_to. case_bool_decide; [by exists (s_maps s)|].
  unfold ybind, the_map. destruct (_ !! _); [|by exists (s_maps s)]. by eexists.
Qed.

(** *** The status *)
Lemma WriteHeader_run s k by_ u st :
  target s k = Some (by_, u) ->
  exists w o, any_WriteHeader U k st s = (put_h s (heap_w (s_h s) w), o) /\
    ((exists e, o = OPanic e) /\ v_log w = wlog s ++ asked by_ st \/
     exists res, o = match res with Some e => OPanic e | None => ORet tt end /\ v_log w = wlog s ++ asked by_ st ++ [UHeader by_ u st res]) /\
    (o = ORet tt -> v_objs w = match v_objs (world s) !! k with Some (WWrap x) => <[k := WWrap (with_status x st)]> (v_objs (world s)) | _ => v_objs (world s) end).
Proof.
  unfold target. intros Ht. unfold any_WriteHeader. unfold ybind at 1. unfold lookup_w at 1. fold (world s). destruct (v_objs (world s) !! k) as [[|u'|y]|] eqn:Hk; try done.
  - injection Ht as <- <-. unfold on_writer, raw_WriteHeader. fold (world s). destruct (u_writeheader _ _ _ _) as [v res]. eexists _, _. split; [reflexivity|].
    split; [|done]. right. exists res. split; [by destruct res|]. done.
  - injection Ht as <- <-. unfold on_writer. fold (world s). unfold wrap_WriteHeader, wbind, wnote, wassert.
    destruct (st >=? 100); cbn; [|by eexists _, _; split; [reflexivity|]; split; [left; split; [eauto|done]|]].
    destruct (st <=? 999); cbn; [|by eexists _, _; split; [reflexivity|]; split; [left; split; [eauto|done]|]].
    unfold wget. cbn. rewrite Hk. destruct (ww_status y =? 0) eqn:Hst; cbn.
    2: { by eexists _, _; split; [reflexivity|]; split; [left; split; [eauto|done]|]. }
    unfold writeHeaderImpl, wbind, wget. cbn. rewrite Hk. cbn. unfold raw_WriteHeader. cbn. destruct (u_writeheader _ _ _ _) as [v res].
    eexists _, _. split; [reflexivity|]. split; [|done]. right. exists res. split; [by destruct res|]. cbn. by rewrite <- app_assoc.
Qed.
Lemma bR_body s k x :
  bR s (ybind (io_Copy U fuel k (rp_body x)) (fun '(_, err) =>
    ybind (body_call U fuel (rp_body x) Close) (fun r =>
    match r with
    | RErr err2 => yret (match err with None => err2 | _ => err end)
    | _ => mpanic PNil
    end)) s).1.
Proof.
  pose proof b_io_Copy. apply pres_bind; [apply _|apply b_io_Copy|]. intros [n err]. apply pres_bind; [apply _|apply b_call|]. intros []; pres_go.
Qed.
(** What is sent after the pushes, up to the status. *)
Lemma rest_run s x k by_ u s' o :
  target s k = Some (by_, u) -> serve_rest x k s = (s', o) ->
  (wlog s' = wlog s /\ s' = s /\ exists e, o = OPanic e) \/
  exists h hdrs s2 w ow,
    h = u_map U (v_v (world s)) u /\ map_or_nil (rp_hdrs x) s = (s, ORet hdrs) /\ copy_to h hdrs s = (s2, ORet tt) /\
    any_WriteHeader U k (rp_code x) s2 = (put_h s2 (heap_w (s_h s2) w), ow) /\
    ((exists e, ow = OPanic e) /\ v_log w = wlog s ++ asked by_ (rp_code x) /\ s' = put_h s2 (heap_w (s_h s2) w) \/
     exists res tail, ow = match res with Some e => OPanic e | None => ORet tt end /\
       v_log w = wlog s ++ asked by_ (rp_code x) ++ [UHeader by_ u (rp_code x) res] /\
       wlog s' = wlog s ++ asked by_ (rp_code x) ++ UHeader by_ u (rp_code x) res :: tail /\ Forall ordinary tail /\
       s_maps s' = s_maps s2 /\ s_arrs s' = s_arrs s2 /\ s_bds s' = s_bds s2 /\ s_rps s' = s_rps s2 /\ s_met s' = s_met s2).
Proof.
  intros Ht. unfold serve_rest. unfold ybind at 1. assert (Hh : any_Header U k s = (s, ORet (u_map U (v_v (world s)) u))).
  { unfold any_Header, target in *. fold (world s). destruct (v_objs (world s) !! k) as [[]|]; try done; by injection Ht as <- <-. }
  rewrite Hh. unfold ybind at 1. destruct (map_or_nil (rp_hdrs x) s) as [s1 o1] eqn:Hm.
  assert (H1 : s1 = s /\ (exists hdrs, o1 = ORet hdrs) \/ s1 = s /\ exists e, o1 = OPanic e).
  { unfold map_or_nil, the_map in Hm. destruct (rp_hdrs x); [destruct (_ !! _)|]; injection Hm as <- <-; eauto. }
  destruct H1 as [[-> [hdrs ->]]|[-> [e ->]]]; [|intros [= <- <-]; left; eauto].
  unfold ybind at 1. destruct (copy_to _ hdrs s) as [s2 o2] eqn:Hc.
  assert (H2 : (exists maps', s2 = put_maps s maps') /\ o2 = ORet tt \/ s2 = s /\ exists e, o2 = OPanic e).
  { unfold copy_to in Hc. assert (Hs : s = put_maps s (s_maps s)) by (by destruct s).
    case_bool_decide; [injection Hc as <- <-; left; eauto|]. unfold ybind, the_map in Hc. destruct (_ !! _); injection Hc as <- <-; [left|right; eauto].
    split; [by eexists|done]. }
  destruct H2 as [[[maps' H2] ->]|[-> [e ->]]]; [|intros [= <- <-]; left; eauto].
  assert (Ht2 : target s2 k = Some (by_, u)) by (by rewrite H2). assert (Hl2 : wlog s2 = wlog s) by (by rewrite H2).
  destruct (WriteHeader_run s2 k by_ u (rp_code x) Ht2) as (w & ow & Hw & Hcase & _). unfold ybind at 1. rewrite Hw.
  intros H. right. exists (u_map U (v_v (world s)) u), hdrs, s2, w, ow. split; [done|]. split; [done|]. split; [done|]. split; [done|].
  destruct Hcase as [[[e ->] Hl]|(res & -> & Hl)].
  - left. injection H as <- <-. rewrite Hl2 in Hl. eauto.
  - right. rewrite Hl2 in Hl. exists res. destruct res as [e|].
    + injection H as <- <-. exists []. do 2 (split; [done|]). split; [|done]. unfold wlog, world. cbn. by rewrite Hl.
    + destruct (bR_body (put_h s2 (heap_w (s_h s2) w)) k x) as (B1 & B2 & B3 & B4 & B5 & l & B6 & B7). rewrite H in *. cbn in *.
      exists l. do 2 (split; [done|]). split; [|done]. rewrite B6. unfold wlog at 1, world. cbn. rewrite Hl, <- !app_assoc. done.
Qed.
End Serve.
