(** * Writers: the properties C28-C32 *)
From stdpp Require Import gmap.
From Coq Require Import ZifyBool.
From Verif Require Import RespSpec RespFacts RunFacts WriterProofs WitnessResp.

Section Main.
Context {V : Type} (U : uenv V) (fuel : nat).
Implicit Types (s : state V) (k : wid).

Lemma reports_obj s k f y : reports U fuel s k f y -> exists o, v_objs (world s) !! k = Some o.
Proof.
  unfold reports. cbn. unfold w_do, ybind, lookup_w. fold (world s). destruct (v_objs (world s) !! k) as [o|]; [eauto|done].
Qed.
Ltac inv_reports H :=
  let o := fresh "o" in let Ho := fresh "Ho" in
  destruct (reports_obj _ _ _ _ H) as [o Ho]; unfold reports in H; cbn in H; unfold w_do, ybind, lookup_w in H;
  match type of H with context [v_objs (h_w (s_h ?s))] => change (h_w (s_h s)) with (world s) in H end;
  rewrite Ho in H; destruct o; unfold yret, mpanic in H; try discriminate H.
Lemma reports_Status s k st : reports U fuel s k WStatus (YInt st) <-> exists x, v_objs (world s) !! k = Some (WWrap x) /\ ww_status x = st.
Proof.
  split; [intros H; inv_reports H; simplify_eq; eauto|]. intros (x & Hk & <-).
  unfold reports. cbn. unfold w_do, ybind, lookup_w. fold (world s). by rewrite Hk.
Qed.
Lemma reports_Bytes s k n : reports U fuel s k WBytesWritten (YInt n) <-> exists x, v_objs (world s) !! k = Some (WWrap x) /\ ww_bytes x = n.
Proof.
  split; [intros H; inv_reports H; simplify_eq; eauto|]. intros (x & Hk & <-).
  unfold reports. cbn. unfold w_do, ybind, lookup_w. fold (world s). by rewrite Hk.
Qed.
Lemma reports_Saw s k b : reports U fuel s k WSawError (YBool b) <-> exists x, v_objs (world s) !! k = Some (WWrap x) /\ ww_sawError x = b.
Proof.
  split; [intros H; inv_reports H; simplify_eq; eauto|]. intros (x & Hk & <-).
  unfold reports. cbn. unfold w_do, ybind, lookup_w. fold (world s). by rewrite Hk.
Qed.
Lemma reports_Unwrap s k u : reports U fuel s k WUnwrap (YHandle (Some u)) <-> exists x, v_objs (world s) !! k = Some (WWrap x) /\ ww_next x = u.
Proof.
  split; [intros H; inv_reports H; simplify_eq; eauto|]. intros (x & Hk & <-).
  unfold reports. cbn. unfold w_do, ybind, lookup_w. fold (world s). by rewrite Hk.
Qed.
Lemma wrapper_ok s k x : treaches U fuel s -> v_objs (world s) !! k = Some (WWrap x) -> wrap_ok U k x (wlog s).
Proof. intros Hr Hk. by apply (treaches_winv U fuel s Hr). Qed.

(** ** C28 *)
Theorem header_once : forall s k st,
  treaches U fuel s -> reports U fuel s k WStatus (YInt st) ->
  exists pushes rest, sent_by k (wlog s) = pushes ++ rest /\ Forall is_push pushes /\
    ((rest = [] /\ st = 0) \/
     exists u r rest', rest = UHeader (Some k) u st r :: rest' /\ 100 <= st <= 999 /\ Forall (fun e => ~ is_header e) rest').
Proof.
  intros s k st Hr (x & Hk & <-)%reports_Status. destruct (wrapper_ok s k x Hr Hk) as [_ _ (pre & post & H1 & H2 & H3) _ _ _].
  exists pre, post. split; [done|]. split; [done|]. destruct post as [|e rest]; [by left|right]. destruct e; try done. destruct H3 as (-> & ? & ?).
  assert (Hin : UHeader by_ u status res ∈ sent_by k (wlog s)) by (rewrite H1; set_solver). unfold sent_by in Hin. apply elem_of_list_filter in Hin as [Hb _].
  cbn in Hb. subst by_. eauto 10.
Qed.
Lemma texec_grow s c : treaches U fuel s -> wgrow (world s) (world (texec U fuel c s).1).
Proof. intros Hr. by apply w_texec, (treaches_winv U fuel). Qed.
Theorem status_stays : forall s k st c,
  treaches U fuel s -> reports U fuel s k WStatus (YInt st) -> st <> 0 ->
  reports U fuel (texec U fuel c s).1 k WStatus (YInt st).
Proof.
  intros s k st c Hr (x & Hk & <-)%reports_Status Hst. destruct (texec_grow s c Hr) as (_ & _ & _ & H). destruct (H k x Hk) as (x' & Hk' & _ & _ & _ & Hs & _).
  apply reports_Status. exists x'. auto.
Qed.
Theorem second_header_raises : forall s k st c,
  reports U fuel s k WStatus (YInt st) -> st <> 0 -> 100 <= c <= 999 ->
  exists s', texec U fuel (TDo (RWriter k (WWriteHeader c))) s = (s', OPanic PAssert) /\
    wlog s' = wlog s ++ [UAsked k c] /\ reports U fuel s' k WSawError (YBool true).
Proof.
  intros s k st c (x & Hk & <-)%reports_Status Hst Hc. eexists. split; [|split]; [..|apply reports_Saw].
  - cbn. unfold w_do, ybind, lookup_w. fold (world s). rewrite Hk. unfold any_WriteHeader, ybind, lookup_w. fold (world s). rewrite Hk.
    unfold on_writer, wrap_WriteHeader, wbind, wnote, wassert, wret, wget, wput, wpanic. fold (world s).
    replace (c >=? 100) with true by lia. replace (c <=? 999) with true by lia. cbn. rewrite Hk. replace (ww_status x =? 0) with false by lia. cbn. done.
  - done.
  - cbn. rewrite list_lookup_insert by (by eapply lookup_lt_Some). eauto.
Qed.
Theorem first_header : forall s k c,
  reports U fuel s k WStatus (YInt 0) -> 100 <= c <= 999 ->
  exists s' u r, reports U fuel s k WUnwrap (YHandle (Some u)) /\
    texec U fuel (TDo (RWriter k (WWriteHeader c))) s = (s', match r with Some e => OPanic e | None => ORet YUnit end) /\
    wlog s' = wlog s ++ [UAsked k c; UHeader (Some k) u c r] /\ reports U fuel s' k WStatus (YInt c).
Proof.
  intros s k c (x & Hk & Hst)%reports_Status Hc.
  destruct (u_writeheader U (v_v (world s)) (ww_next x) c) as [v r] eqn:Hw.
  eexists _, (ww_next x), r. split; [apply reports_Unwrap; eauto|]. split; [|split]; [..|apply reports_Status].
  - cbn. unfold w_do, ybind, lookup_w. fold (world s). rewrite Hk. unfold any_WriteHeader, ybind, lookup_w. fold (world s). rewrite Hk.
    unfold on_writer, wrap_WriteHeader, wbind, wnote, wassert, wret, wget, wput, wpanic. fold (world s).
    replace (c >=? 100) with true by lia. replace (c <=? 999) with true by lia. cbn. rewrite Hk. replace (ww_status x =? 0) with true by lia. cbn.
    unfold writeHeaderImpl, wbind, wget, wput, raw_WriteHeader. cbn. rewrite Hk. cbn. rewrite Hw. unfold opt_panic. destruct r; cbn; reflexivity.
  - cbn. by destruct r; cbn; rewrite <- app_assoc.
  - destruct r; cbn; rewrite list_lookup_insert by (by eapply lookup_lt_Some); eexists; split; [done|done|done|done].
Qed.
Theorem maybe_noop : forall s k st c,
  reports U fuel s k WStatus (YInt st) -> st <> 0 -> 100 <= c <= 999 ->
  texec U fuel (TDo (RWriter k (WMaybeWriteHeader c))) s = (s, ORet YUnit).
Proof.
  intros s k st c (x & Hk & <-)%reports_Status Hst Hc. cbn. unfold w_do, ybind, lookup_w. fold (world s). rewrite Hk. unfold on_writer.
  rewrite (MaybeWriteHeader_run U). fold (world s). replace ((100 <=? c) && (c <=? 999)) with true by lia. rewrite Hk. replace (ww_status x =? 0) with false by lia.
  unfold yret. destruct s as [[] ? ? ? ? ?]. done.
Qed.

(** ** C29 *)
Theorem bytes_counted : forall s k n,
  treaches U fuel s -> reports U fuel s k WBytesWritten (YInt n) -> n = wrap64 (total_accepted (sent_by k (wlog s))).
Proof. intros s k n Hr (x & Hk & <-)%reports_Bytes. by destruct (wrapper_ok s k x Hr Hk). Qed.

(** ** C30 *)
Theorem no_content : forall s k,
  treaches U fuel s -> reports U fuel s k WStatus (YInt 204) -> Forall (fun e => ~ is_data e) (sent_by k (wlog s)).
Proof.
  intros s k Hr (x & Hk & Hs)%reports_Status. destruct (wrapper_ok s k x Hr Hk) as [_ _ _ _ H _]. apply H. unfold is_dead, StatusNoContent. rewrite Hs. by destruct (ww_isHEAD x).
Qed.
Theorem head_requests : forall s k u s1 k' cs,
  treaches U fuel s -> v_objs (world s) !! k = Some (WRaw u) ->
  texec U fuel (TDo (RNewWriter (Some k) true)) s = (s1, ORet (YHandle (Some k'))) ->
  Forall (fun e => ~ is_data e) (sent_by k' (wlog (thistory U fuel s1 cs).1)).
Proof.
  intros s k u s1 k' cs Hr Hk Hx.
  pose proof (w_texec U fuel (TDo (RNewWriter (Some k) true)) s (treaches_winv U fuel s Hr)) as [Hi1 _]. rewrite Hx in Hi1. cbn in Hi1.
  pose proof (w_history U fuel s1 cs Hi1) as [Hi2 Hg].
  cbn in Hx. unfold ybind, NewWriter in Hx. fold (world s) in Hx. rewrite Hk in Hx. unfold yret in Hx.
  match type of Hx with context [WWrap ?y] => set (x := y) in Hx end. injection Hx as <- <-.
  destruct Hg as (_ & _ & _ & Hg). destruct (Hg (length (v_objs (world s))) x) as (x' & Hk' & _ & _ & Hh & _).
  { cbn. by rewrite list_lookup_middle. }
  destruct (proj1 Hi2 _ _ Hk') as [_ _ _ _ H _]. apply H. unfold is_dead. rewrite Hh. done.
Qed.
Theorem silent_Write : forall s k x p,
  v_objs (world s) !! k = Some (WWrap x) -> ww_isHEAD x = true \/ ww_status x = 204 ->
  (exists s' l, texec U fuel (TDo (RWriter k (WWrite p))) s = (s', ORet (YCount (zlen p) None)) /\
     wlog s' = wlog s ++ l /\ Forall (fun e => ~ is_data e) l) \/
  (exists s' e, texec U fuel (TDo (RWriter k (WWrite p))) s = (s', OPanic e) /\
     wlog s' = wlog s ++ [UHeader (Some k) (ww_next x) 200 (Some e)]).
Proof.
  intros s k x p Hk Hd. cbn. unfold w_do, ybind, lookup_w. fold (world s). rewrite Hk. unfold on_writer, any_Write. fold (world s). rewrite Hk.
  unfold wrap_Write, wbind. rewrite (MaybeWriteHeader_run U). cbn. rewrite Hk. destruct (ww_status x =? 0) eqn:Hs; cbn.
  - destruct (u_writeheader U _ _ _) as [v r]. destruct r as [e|]; cbn.
    + right. eexists _, e. split; [reflexivity|]. done.
    + unfold wget. cbn. rewrite list_lookup_insert by (by eapply lookup_lt_Some). cbn. destruct Hd as [->|Hd]; [|lia]. cbn. left. eexists _, _. split; [reflexivity|]. split; [reflexivity|].
      constructor; [by intros []|done].
  - unfold wget. rewrite Hk. replace (ww_isHEAD x || (ww_status x =? StatusNoContent)) with true by (unfold StatusNoContent; destruct Hd as [-> | ->]; [done|by destruct (ww_isHEAD x)]).
    left. eexists _, []. split; [reflexivity|]. split; [by rewrite app_nil_r|]. constructor.
Qed.

(** ** C31 *)
Theorem saw_error : forall s k b,
  treaches U fuel s -> reports U fuel s k WSawError (YBool b) ->
  (b = true <-> Exists write_failed (sent_by k (wlog s)) \/ asked_twice k (wlog s)).
Proof. intros s k b Hr (x & Hk & <-)%reports_Saw. by destruct (wrapper_ok s k x Hr Hk). Qed.

(** ** C32 *)
Theorem wraps_once : forall s k u isHEAD,
  reports U fuel s k WUnwrap (YHandle (Some u)) -> texec U fuel (TDo (RNewWriter (Some k) isHEAD)) s = (s, ORet (YHandle (Some k))).
Proof. intros s k u b (x & Hk & <-)%reports_Unwrap. cbn. unfold ybind, NewWriter. fold (world s). by rewrite Hk. Qed.
Theorem wraps_new : forall s k u isHEAD,
  v_objs (world s) !! k = Some (WRaw u) ->
  exists s' k', texec U fuel (TDo (RNewWriter (Some k) isHEAD)) s = (s', ORet (YHandle (Some k'))) /\
    v_objs (world s) !! k' = None /\ wlog s' = wlog s /\
    reports U fuel s' k' WUnwrap (YHandle (Some u)) /\ reports U fuel s' k' WStatus (YInt 0) /\
    reports U fuel s' k' WBytesWritten (YInt 0) /\ reports U fuel s' k' WSawError (YBool false).
Proof.
  intros s k u b Hk. cbn. unfold ybind, NewWriter. fold (world s). rewrite Hk.
  match goal with |- context [WWrap ?y] => set (x := y) end. eexists _, _. split; [reflexivity|]. split; [by apply lookup_ge_None_2|]. split; [done|].
  rewrite reports_Unwrap, reports_Status, reports_Bytes, reports_Saw.
  assert (H : v_objs (world (put_h s (heap_w (s_h s) (set_objs (world s) (v_objs (world s) ++ [WWrap x]))))) !! length (v_objs (world s)) = Some (WWrap x))
    by (cbn; by rewrite list_lookup_middle).
  repeat split; eauto.
Qed.
Theorem flusher_iff : forall s k u,
  treaches U fuel s -> reports U fuel s k WUnwrap (YHandle (Some u)) ->
  (wc_flusher (u_caps U u) = false <-> texec U fuel (TDo (RWriter k WFlush)) s = (s, OPanic PNil)).
Proof.
  intros s k u Hr (x & Hk & <-)%reports_Unwrap. destruct (wrapper_ok s k x Hr Hk) as [Hc _ _ _ _ _]. unfold good_caps, is_fancy in Hc.
  cbn. unfold w_do, ybind, lookup_w. fold (world s). rewrite Hk.
  assert (Hfl : ww_kind x <> KBasic -> wc_flusher (u_caps U (ww_next x)) = true -> on_writer (wrap_Flush U k) s <> (s, OPanic PNil)).
  { intros _ Hf Heq. assert (Hl : wlog (on_writer (wrap_Flush U k) s).1 = wlog s) by (by rewrite Heq). revert Hl. clear Heq.
    unfold on_writer. fold (world s). unfold wrap_Flush, wbind. rewrite (MaybeWriteHeader_run U). cbn. rewrite Hk.
    destruct (ww_status x =? 0) eqn:Hs; cbn.
    - destruct (u_writeheader U _ _ _) as [v r]. destruct r as [e|]; cbn.
      + intros Hl. apply (f_equal length) in Hl. rewrite app_length in Hl. cbn in Hl. unfold wlog in Hl. lia.
      + unfold wget. cbn. rewrite list_lookup_insert by (by eapply lookup_lt_Some). cbn. rewrite Hf. unfold raw_Flush. cbn.
        destruct (u_flush _ _ _) as [v2 r2]. destruct r2; cbn; intros Hl; apply (f_equal length) in Hl; rewrite !app_length in Hl; cbn in Hl; unfold wlog in Hl; lia.
    - unfold wget. rewrite Hk, Hf. unfold raw_Flush. destruct (u_flush _ _ _) as [v2 r2].
      destruct r2; cbn; intros Hl; apply (f_equal length) in Hl; rewrite !app_length in Hl; cbn in Hl; unfold wlog in Hl; lia. }
  destruct (ww_kind x) eqn:Hkd.
  - split; [|done]. done.
  - destruct Hc as [_ Hc]. rewrite Hc. split; [done|]. intros H. exfalso. apply Hfl; [done|done|].
    destruct (on_writer _ s) as [s1 [[]|e|]]; [done|by injection H as -> ->|done].
  - rewrite !andb_true_iff in Hc. destruct Hc as [[_ Hc] _]. rewrite Hc. split; [done|]. intros H. exfalso. apply Hfl; [done|done|].
    destruct (on_writer _ s) as [s1 [[]|e|]]; [done|by injection H as -> ->|done].
Qed.
Theorem capabilities : forall s k u,
  treaches U fuel s -> reports U fuel s k WUnwrap (YHandle (Some u)) ->
  exists x, v_objs (world s) !! k = Some (WWrap x) /\
    match ww_kind x with
    | KFancy => wc_flusher (u_caps U u) = true /\ wc_closenotifier (u_caps U u) = true /\ wc_hijacker (u_caps U u) = true /\ wc_readerfrom (u_caps U u) = true
    | KFlush => wc_flusher (u_caps U u) = true /\ ~ (wc_closenotifier (u_caps U u) = true /\ wc_hijacker (u_caps U u) = true /\ wc_readerfrom (u_caps U u) = true)
    | KBasic => wc_flusher (u_caps U u) = false
    end.
Proof.
  intros s k u Hr (x & Hk & <-)%reports_Unwrap. exists x. split; [done|]. destruct (wrapper_ok s k x Hr Hk) as [Hc _ _ _ _ _]. unfold good_caps, is_fancy in Hc.
  destruct (ww_kind x); [done|..]; destruct (wc_flusher _), (wc_closenotifier _), (wc_hijacker _), (wc_readerfrom _); cbn in *; naive_solver.
Qed.
(** The log only grows. *)
Definition lR s s' : Prop := exists l, wlog s' = wlog s ++ l.
Global Instance lR_refl : Reflexive lR.
Proof. intros s. exists []. by rewrite app_nil_r. Qed.
Global Instance lR_trans : Transitive lR.
Proof. intros s1 s2 s3 [l1 H1] [l2 H2]. exists (l1 ++ l2). by rewrite H2, H1, app_assoc. Qed.
Definition wl {A} (m : wm A) : Prop := forall w : wst V, exists l, v_log (m w).1 = v_log w ++ l.
Lemma wl_still {A} (m : wm A) : (forall w, v_log (m w).1 = v_log w) -> wl m.
Proof. intros H w. exists []. by rewrite app_nil_r. Qed.
Lemma wl_bind {A B} (m : wm A) (k : A -> wm B) : wl m -> (forall a, wl (k a)) -> wl (wbind m k).
Proof.
  intros Hm Hk w. unfold wbind. destruct (Hm w) as [l1 H1]. destruct (m w) as [w' [a|e]]; cbn in *; [|eauto].
  destruct (Hk a w') as [l2 H2]. exists (l1 ++ l2). by rewrite H2, H1, app_assoc.
Qed.
Lemma wl_get k : wl (wget k).
Proof. apply wl_still. intros w. unfold wget. by destruct (_ !! _) as [[]|]. Qed.
Lemma wl_put k x : wl (wput k x).
Proof. by apply wl_still. Qed.
Lemma wl_assert b : wl (wassert b).
Proof. apply wl_still. by destruct b. Qed.
Lemma wl_ret {A} (a : A) : wl (wret a).
Proof. by apply wl_still. Qed.
Lemma wl_raw_Write by_ u p : wl (raw_Write U by_ u p).
Proof. intros w. unfold raw_Write. destruct (ev_write _ _ _ _). eexists. reflexivity. Qed.
Lemma wl_Maybe k st : wl (wrap_MaybeWriteHeader U k st).
Proof.
  intros w. rewrite (MaybeWriteHeader_run U). destruct (_ && _); [|exists []; by rewrite app_nil_r].
  destruct (_ !! _) as [[| |y]|]; try (exists []; by rewrite app_nil_r). destruct (_ =? _); [|exists []; by rewrite app_nil_r].
  destruct (u_writeheader _ _ _ _). eexists. reflexivity.
Qed.
Lemma l_any_Write (k : wid) p (w : wst V) : exists l, v_log (any_Write U k p w).1 = v_log w ++ l.
Proof.
  unfold any_Write. destruct (v_objs w !! k) as [[|u|x]|]; try (exists []; by rewrite app_nil_r); [apply wl_raw_Write|].
  apply wl_bind; [apply wl_Maybe|intros _]. apply wl_bind; [apply wl_get|intros y]. destruct (_ || _); [apply wl_ret|].
  apply wl_bind; [apply wl_raw_Write|intros [n err]]. apply wl_bind; [apply wl_assert|intros _]. apply wl_bind; [apply wl_get|intros z].
  apply wl_bind; [apply wl_put|intros _]. apply wl_ret.
Qed.
Lemma l_run {A} (m : prog A) (h : heap (wst V)) : exists l, v_log (h_w (xrun (wenv U) (whazard U) h m).1) = v_log (h_w h) ++ l.
Proof.
  apply (xrun_world U (fun w w' => exists l, v_log w' = v_log w ++ l)).
  - intros w. exists []. by rewrite app_nil_r.
  - intros w1 w2 w3 [l1 H1] [l2 H2]. exists (l1 ++ l2). by rewrite H2, H1, app_assoc.
  - clear h. intros h B a h' x Ha. destruct a; cbn in Ha; repeat case_match; simplify_eq/=; try (exists []; by rewrite app_nil_r).
    match goal with H : any_Write U ?a ?b ?c = _ |- _ => pose proof (l_any_Write a b c) as Hw; rewrite H in Hw end. done.
  - intros w v. exists []. by rewrite app_nil_r.
Qed.
Lemma l_call b f : pres lR (body_call U fuel b f).
Proof.
  apply pres_bind; [apply _|by apply pres_of_opt; apply _|]. intros i s. unfold body_cmd, uexec, xexec, lR, wlog, world.
  pose proof (l_run (cmd_prog fuel (s_h s) (Call i f)) (s_h s)) as H. destruct (xrun _ _ _ _). done.
Qed.
Lemma l_on_writer {A} (m : wm A) : (forall w, exists l, v_log (m w).1 = v_log w ++ l) -> pres lR (on_writer m).
Proof. intros H s. unfold on_writer, lR, wlog. specialize (H (world s)). unfold world in *. destruct (m _) as [w [a|e]]; cbn in *; done. Qed.
Lemma l_readfrom_loop n u b last : pres lR (readfrom_loop U fuel n u b last).
Proof.
  revert last. induction n as [|n IH]; intros last; cbn [readfrom_loop]; [pres_go|]. intros s. cbv zeta. destruct (u_readfrom _ _ _ _) as [v [f|ans]]; cbn.
  - set (s1 := put_h s _). assert (Hs1 : lR s s1) by (exists []; by rewrite app_nil_r). etrans; [exact Hs1|]. pose proof (l_call b f s1) as H.
    destruct (body_call U fuel b f s1) as [s2 [r|e|]]; cbn in H; [etrans; [exact H|apply IH]..|done].
  - exists []. by rewrite app_nil_r.
Qed.
Lemma l_log_u e : pres lR (log_u e).
Proof. intros s. by exists [e]. Qed.
Lemma l_wput k x : pres lR (on_writer (wput k x)).
Proof. apply l_on_writer. intros w. exists []. by rewrite app_nil_r. Qed.
Lemma l_lookup_wrap k : pres lR (lookup_wrap k).
Proof. unfold lookup_wrap. pres_go. Qed.
Local Hint Resolve l_call l_readfrom_loop l_log_u l_wput l_lookup_wrap : pres.
Lemma l_discard_loop n b buf t : pres lR (discard_loop U fuel n b buf t).
Proof. revert buf t. induction n as [|n IH]; intros; cbn [discard_loop]; cbv zeta; pres_go. Qed.
Local Hint Resolve l_discard_loop : pres.
Lemma l_wrap_ReadFrom_rest k b : pres lR (
  ybind (lookup_wrap k) (fun x =>
  if ww_isHEAD x || (ww_status x =? StatusNoContent) then copy_discard U fuel b else
  if negb (wc_readerfrom (u_caps U (ww_next x))) then mpanic PNil else
  ybind (raw_ReadFrom U fuel (Some k) (ww_next x) b) (fun '(n, err) =>
  ybind (massert (n >=? 0)) (fun _ =>
  ybind (lookup_wrap k) (fun x =>
  ybind (on_writer (wput k (with_bytes x (wrap64 (ww_bytes x + n))))) (fun _ =>
  yret (n, err))))))).
Proof. unfold copy_discard, raw_ReadFrom, write_to. pres_go. Qed.
Theorem readerfrom_iff : forall s k u b,
  treaches U fuel s -> reports U fuel s k WUnwrap (YHandle (Some u)) ->
  if wc_closenotifier (u_caps U u) && wc_hijacker (u_caps U u) && wc_flusher (u_caps U u) && wc_readerfrom (u_caps U u) then
    (forall x, v_objs (world s) !! k = Some (WWrap x) -> ww_isHEAD x = false -> ww_status x <> 204 ->
     exists e l, wlog (texec U fuel (TDo (RWriter k (WReadFrom b))) s).1 = wlog s ++ e :: l)
  else texec U fuel (TDo (RWriter k (WReadFrom b))) s = (s, OPanic PNil).
Proof.
  intros s k u b Hr (x & Hk & <-)%reports_Unwrap. destruct (wrapper_ok s k x Hr Hk) as [Hc _ _ _ _ _]. unfold good_caps in Hc.
  fold (is_fancy (u_caps U (ww_next x))). destruct (is_fancy (u_caps U (ww_next x))) eqn:Hf.
  - intros x' Hk' Hh Hs. assert (x' = x) as -> by congruence. clear Hk'.
    assert (Hkd : ww_kind x = KFancy) by (destruct (ww_kind x); [unfold is_fancy in Hf; rewrite Hc, !andb_false_r in Hf; done|by destruct Hc|done]).
    unfold is_fancy in Hf. rewrite !andb_true_iff in Hf. destruct Hf as [[[_ _] _] Hrf].
    assert (Hrest : exists e l, wlog (wrap_ReadFrom U fuel k (Some b) s).1 = wlog s ++ e :: l).
    { unfold wrap_ReadFrom. unfold ybind at 1. unfold on_writer at 1. fold (world s). rewrite (MaybeWriteHeader_run U). cbn. rewrite Hk.
      destruct (ww_status x =? 0) eqn:Hst; cbn.
      - destruct (u_writeheader U _ _ _) as [v r]. cbn. destruct r as [e|]; cbn; [eexists _, []; reflexivity|].
        match goal with |- context [ybind _ _ ?s1] => destruct (l_wrap_ReadFrom_rest k (Some b) s1) as [l Hl] end.
        eexists _, l. rewrite Hl. cbn. rewrite <- app_assoc. reflexivity.
      - unfold lookup_wrap at 1. unfold ybind at 1. unfold ybind at 1. unfold lookup_w at 1. cbn [s_h put_h h_w heap_w]. rewrite Hk. unfold yret at 1.
        unfold StatusNoContent. rewrite Hh. cbn. replace (ww_status x =? 204) with false by lia. rewrite Hrf. cbn [negb].
        set (s1 := put_h s _).
        match goal with |- context [ybind (raw_ReadFrom U fuel (Some k) (ww_next x) (Some b)) ?f s1] =>
          assert (Heq : ybind (raw_ReadFrom U fuel (Some k) (ww_next x) (Some b)) f s1 =
            ybind (ybind (readfrom_loop U fuel fuel (ww_next x) (Some b) None) (fun x0 => ybind (log_u (UReadFromEnd (Some k) (ww_next x) x0)) (fun _ => match x0 with inl r => yret r | inr e => mpanic e end))) f
              (log_u (UReadFrom (Some k) (ww_next x) b) s1).1) by reflexivity; rewrite Heq;
          assert (Hp : pres lR (ybind (ybind (readfrom_loop U fuel fuel (ww_next x) (Some b) None) (fun x0 => ybind (log_u (UReadFromEnd (Some k) (ww_next x) x0)) (fun _ => match x0 with inl r => yret r | inr e => mpanic e end))) f)) by pres_go
        end.
        match goal with |- context [ybind _ _ ?s2] => destruct (Hp s2) as [l Hl] end. rewrite Hl. eexists _, l. cbn. rewrite <- app_assoc. reflexivity. }
    cbn. unfold w_do, ybind, lookup_w. fold (world s). rewrite Hk. cbn [any_ReaderFrom]. rewrite Hkd.
    unfold any_ReadFrom, ybind, lookup_w. fold (world s). rewrite Hk. destruct Hrest as (e & l & Hl). exists e, l.
    destruct (wrap_ReadFrom U fuel k (Some b) s) as [s2 [[? ?]|?|]]; exact Hl.
  - cbn. unfold w_do, ybind, lookup_w. fold (world s). rewrite Hk. cbn [any_ReaderFrom]. destruct (ww_kind x); done.
Qed.
End Main.

Theorem readfrom_error_unseen : exists (V : Type) (U : uenv V) fuel s k u n e,
  treaches U fuel s /\ UReadFromEnd (Some k) u (inl (n, Some e)) ∈ wlog s /\ reports U fuel s k WSawError (YBool false).
Proof.
  pose (U := web [] (fun _ => all_caps) accepts (fun _ => None) fails_soon).
  exists (list nat), U, 9%nat, (after U 9 (start [] 1) [TDo (RNewWriter (Some 1%nat) false); TDo (RB (NewBytes (bs "hello"))); TDo (RWriter 2 (WReadFrom 1))]), 2%nat, 0%nat, 2, (External 7).
  split; [apply after_reaches|]. split; [|vm_compute; done]. vm_compute. set_solver.
Qed.
