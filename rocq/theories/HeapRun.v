(** * Response-level programs as runs of Body commands (proofs)

    Whatever a program does with Builders, Responses, Writers and Adaptors, the
    Bodies only see Body commands and changes of the outside world. *)
From stdpp Require Import gmap.
From Coq Require Import ZifyBool.
From Verif Require Import RespFacts DeliverSpec Post Preserve JsonProofs.

Section H.
Context {V : Type} (U : uenv V) (fuel : nat) (vR : V -> V -> Prop) (G : cmd -> Prop).
Implicit Types (s : state V) (h : heap (wst V)).
Notation E := (wenv U).
Hypothesis Hrefl : Reflexive vR.
Hypothesis Htrans : Transitive vR.
Hypothesis Hcalm : calm U vR.
Hypothesis Hrf : forall v u last v' f, u_readfrom U v u last = (v', inl f) -> go_op f.
Hypothesis Hsafe : no_hazard U.
Hypothesis Hcall : forall i f, go_op f -> G (Call i f).
Hypothesis Hbytes : forall d, zlen d <= max_slice -> G (NewBytes d).

Inductive hstep : heap (wst V) -> heap (wst V) -> Prop :=
| hs_cmd h c : G c -> hstep h (exec E fuel h c).1
| hs_world h w : vR (v_v (h_w h)) (v_v w) -> hstep h (heap_w h w).
Definition hR s s' : Prop := rtc hstep (s_h s) (s_h s').
Global Instance hR_refl : Reflexive hR. Proof. intros s. apply rtc_refl. Qed.
Global Instance hR_trans : Transitive hR. Proof. intros s1 s2 s3. apply rtc_transitive. Qed.
Notation hok m := (pres hR m).

Lemma hrun_feasible h h' : rtc hstep h h' -> feasible h' -> feasible h.
Proof.
  induction 1 as [|h1 h2 h3 Hs _ IH]; [done|]. intros Hf. specialize (IH Hf). destruct Hs as [h1 c _|h1 w _]; [|done].
  destruct (exec E fuel h1 c) eqn:Hex. by eapply exec_feasible.
Qed.
(** An invariant of Body commands and of changes of the outside world. *)
Lemma hrun_inv (I : heap (wst V) -> Prop) h h' :
  (forall h c h' o, I h -> G c -> exec E fuel h c = (h', o) -> feasible h' -> I h') ->
  (forall h w, I h -> vR (v_v (h_w h)) (v_v w) -> I (heap_w h w)) ->
  rtc hstep h h' -> feasible h' -> I h -> I h'.
Proof.
  intros H1 H2. induction 1 as [|h1 h2 h3 Hs Hr IH]; [done|]. intros Hf HI. apply IH; [done|].
  pose proof (hrun_feasible _ _ Hr Hf) as Hf2. destruct Hs as [h1 c Hc|h1 w Hw]; [|by apply H2].
  destruct (exec E fuel h1 c) as [h2 o] eqn:Hex. by eapply H1.
Qed.

Lemma one_cmd s h c : G c -> h = (exec E fuel (s_h s) c).1 -> hR s (put_h s h).
Proof. intros Hc ->. apply rtc_once. by constructor. Qed.
Lemma one_world s w : vR (v_v (h_w (s_h s))) (v_v w) -> hR s (put_h s (heap_w (s_h s) w)).
Proof. intros Hw. apply rtc_once. by constructor. Qed.
Lemma h_still {A} (m : M A) : (forall s, s_h (m s).1 = s_h s) -> hok m.
Proof. intros H s. unfold hR. rewrite H. apply rtc_refl. Qed.
Lemma h_body c : G c -> hok (body_cmd U fuel c).
Proof. intros Hc s. unfold body_cmd. rewrite uexec_safe by done. pose proof (one_cmd s _ c Hc eq_refl) as H. by destruct (exec _ _ _ _). Qed.
Lemma h_call b f : go_op f -> hok (body_call U fuel b f).
Proof. intros Hf. apply pres_bind; [apply _|by apply pres_of_opt; apply _|]. intros i. by apply h_body, Hcall. Qed.
Lemma h_FromBytes d : zlen d <= max_slice -> hok (on_heap U (FromBytes d)).
Proof.
  intros Hd s. unfold on_heap. assert (H : (run E (s_h s) (FromBytes d)).1 = (exec E fuel (s_h s) (NewBytes d)).1).
  { unfold exec, cmd_prog, rnew. rewrite run_bind. by destruct (run E (s_h s) (FromBytes d)) as [h [i|e|]]. }
  pose proof (one_cmd s _ _ (Hbytes _ Hd) H) as Hr. by destruct (run _ _ _).
Qed.
Lemma h_Panic {A} e : hok (on_heap U (@Panic A e)).
Proof. by apply h_still. Qed.

(** Programs of Writers. *)
Definition wv {A} (m : wm (V:=V) A) : Prop := forall w, vR (v_v w) (v_v (m w).1).
Lemma wv_ret {A} (a : A) : wv (wret a). Proof. intros w. apply Hrefl. Qed.
Lemma wv_panic {A} e : wv (@wpanic V A e). Proof. intros w. apply Hrefl. Qed.
Lemma wv_assert b : wv (wassert b). Proof. intros w. destruct b; apply Hrefl. Qed.
Lemma wv_get k : wv (wget k).
Proof. intros w. unfold wget. destruct (_ !! _) as [[]|]; apply Hrefl. Qed.
Lemma wv_put k x : wv (wput k x). Proof. intros w. apply Hrefl. Qed.
Lemma wv_note e : wv (wnote e). Proof. intros w. apply Hrefl. Qed.
Lemma wv_bind {A B} (m : wm A) (k : A -> wm B) : wv m -> (forall a, wv (k a)) -> wv (wbind m k).
Proof. intros Hm Hk w. unfold wbind. specialize (Hm w). destruct (m w) as [w' [a|e]]; cbn in *; [|done]. etrans; [done|apply Hk]. Qed.
Lemma wv_WriteHeader by_ u st : wv (raw_WriteHeader U by_ u st).
Proof. intros w. unfold raw_WriteHeader. pose proof (ca_writeheader _ _ Hcalm (v_v w) u st) as H. by destruct (u_writeheader _ _ _ _). Qed.
Lemma wv_Write by_ u p : wv (raw_Write U by_ u p).
Proof. intros w. unfold raw_Write. pose proof (ca_write _ _ Hcalm (v_v w) u p) as H. by destruct (ev_write _ _ _ _). Qed.
Lemma wv_Push by_ u url : wv (raw_Push U by_ u url).
Proof. intros w. unfold raw_Push. pose proof (ca_push _ _ Hcalm (v_v w) u url) as H. by destruct (u_push _ _ _ _). Qed.
Lemma wv_Flush by_ u : wv (raw_Flush U by_ u).
Proof. intros w. unfold raw_Flush. pose proof (ca_flush _ _ Hcalm (v_v w) u) as H. by destruct (u_flush _ _ _). Qed.
Ltac wv_go := repeat first
  [ apply wv_ret | apply wv_panic | apply wv_assert | apply wv_get | apply wv_put | apply wv_note | apply wv_WriteHeader | apply wv_Write | apply wv_Push | apply wv_Flush
  | apply wv_bind; [|intros ?] | match goal with |- wv (match ?x with _ => _ end) => destruct x | |- wv (let '(_, _) := ?x in _) => destruct x end ].
Lemma wv_Maybe k st : wv (wrap_MaybeWriteHeader U k st).
Proof. unfold wrap_MaybeWriteHeader, writeHeaderImpl. wv_go. Qed.
Lemma wv_wrap_WriteHeader k st : wv (wrap_WriteHeader U k st).
Proof. unfold wrap_WriteHeader, writeHeaderImpl. wv_go. Qed.
Lemma wv_wrap_Write k p : wv (wrap_Write U k p).
Proof. unfold wrap_Write. apply wv_bind; [apply wv_Maybe|]. intros. wv_go. Qed.
Lemma wv_wrap_Push k url : wv (wrap_Push U k url).
Proof. unfold wrap_Push. wv_go. Qed.
Lemma wv_wrap_Flush k : wv (wrap_Flush U k).
Proof. unfold wrap_Flush. apply wv_bind; [apply wv_Maybe|]. intros. wv_go. Qed.
Lemma wv_any_Write k p : wv (any_Write U k p).
Proof.
  intros w. unfold any_Write. destruct (v_objs w !! k) as [[|u|x]|]; try done; [apply wv_Write|apply wv_wrap_Write].
Qed.
Lemma h_writer {A} (m : wm A) : wv m -> hok (on_writer m).
Proof. intros Hm s. unfold on_writer. pose proof (one_world s _ (Hm (h_w (s_h s)))) as H. by destruct (m _). Qed.
Lemma h_outside {A} (m : V -> V * (A + panic)) : (forall v, vR v (m v).1) -> hok (outside m).
Proof.
  intros Hm s. unfold outside. pose proof (Hm (v_v (h_w (s_h s)))) as H. destruct (m _) as [v x]. by apply one_world.
Qed.

Lemma h_put_map m x : hok (put_map m x). Proof. by apply h_still. Qed.
Lemma h_make_map x : hok (make_map x). Proof. by apply h_still. Qed.
Lemma h_make_slice l n : hok (make_slice l n). Proof. by apply h_still. Qed.
Lemma h_append_to v x : hok (append_to U v x).
Proof. apply h_still. intros s. unfold append_to. destruct (sl_arr v); [destruct (_ <? _)%nat|]; done. Qed.
Lemma h_copyStrings v : hok (copyStrings v).
Proof. apply h_still. intros s. unfold copyStrings. destruct (_ =? _)%nat; done. Qed.
Lemma h_set_bd m x : hok (set_bd m x). Proof. by apply h_still. Qed.
Lemma h_make_bd x : hok (make_bd x). Proof. by apply h_still. Qed.
Lemma h_make_rp x : hok (make_rp x). Proof. by apply h_still. Qed.
Lemma h_met x : hok (met x). Proof. by apply h_still. Qed.
Lemma h_BytesRemaining b : hok (body_call U fuel b BytesRemaining). Proof. by apply h_call. Qed.
Lemma h_Close b : hok (body_call U fuel b Close). Proof. by apply h_call. Qed.
Lemma h_Copy i : hok (body_cmd U fuel (Call i Copy)). Proof. by apply h_body, Hcall. Qed.
Local Hint Resolve h_put_map h_make_map h_make_slice h_append_to h_copyStrings h_set_bd h_make_bd h_make_rp h_met h_BytesRemaining h_Close h_Copy : pres.
Lemma h_copy_entries l dst : hok (copy_entries l dst).
Proof. revert dst. induction l as [|[key v] l IH]; intros dst; cbn; pres_go. Qed.
Local Hint Resolve h_copy_entries : pres.
Lemma h_copyHeaders o : hok (copyHeaders o).
Proof. unfold copyHeaders. pres_go. Qed.
Lemma h_copyBody o : hok (copyBody U fuel o).
Proof. unfold copyBody. pres_go. Qed.
Lemma h_hdr_Set m key v : hok (hdr_Set m key v).
Proof. unfold hdr_Set. pres_go. Qed.
Lemma h_hdr_Add m key v : hok (hdr_Add U m key v).
Proof. unfold hdr_Add. pres_go. Qed.
Lemma h_hdr_Del m key : hok (hdr_Del m key).
Proof. unfold hdr_Del. pres_go. Qed.
Local Hint Resolve h_copyHeaders h_copyBody h_hdr_Set h_hdr_Add h_hdr_Del : pres.
Lemma length_of_string (x : string) : zlen (list_ascii_of_string x) = Z.of_nat (String.length x).
Proof. unfold zlen. f_equal. induction x; cbn; [done|]. by rewrite IHx. Qed.
Lemma h_gen_redirect g c l : Z.of_nat (String.length (redirect_text l)) <= max_slice -> hok (gen_redirect U g c l).
Proof.
  intros Hl. unfold gen_redirect, default_redirect. destruct g as [g|].
  - apply h_outside. intros v. apply (ca_redirect _ _ Hcalm).
  - assert (hok (on_heap U (FromBytes (list_ascii_of_string (redirect_text l))))) by (apply h_FromBytes; by rewrite length_of_string). pres_go.
Qed.
Lemma h_gen_error g c e : Z.of_nat (String.length (error_text U c)) <= max_slice -> hok (gen_error U g c e).
Proof.
  intros Hl. unfold gen_error, default_error. destruct g as [g|].
  - apply h_outside. intros v. apply (ca_error _ _ Hcalm).
  - assert (hok (on_heap U (FromBytes (list_ascii_of_string (error_text U c))))) by (apply h_FromBytes; by rewrite length_of_string). pres_go.
Qed.
Lemma h_bd_Headers b : hok (bd_Headers b).
Proof. unfold bd_Headers. pres_go. Qed.
Lemma h_fill_in m key v : hok (fill_in m key v).
Proof. unfold fill_in. pres_go. Qed.
Local Hint Resolve h_bd_Headers h_fill_in : pres.
Lemma h_FromJSON src pretty : (forall d, src = inl d -> pretty = true -> zlen (crlf_of d) <= max_slice) -> hok (on_heap U (fromJSONImpl src pretty)).
Proof.
  intros H. unfold fromJSONImpl. destruct src as [d|e]; [|apply h_Panic]. apply h_FromBytes. destruct pretty.
  - rewrite crlf_loop_spec. by apply H.
  - unfold go_copy. cbn. rewrite drop_nil. unfold zlen. cbn. done.
Qed.
Lemma h_FromProto raw : (forall d, raw = Some (inl d) -> zlen d <= max_slice) -> hok (on_heap U (FromProto raw)).
Proof. intros H. destruct raw as [[d|e]|]; cbn; [by apply h_FromBytes, H|apply h_Panic..]. Qed.
Lemma h_encoded b mk ct : hok (on_heap U mk) -> hok (bd_encoded U b mk ct).
Proof. intros H. unfold bd_encoded. pres_go. Qed.
Lemma h_bd_do b f : go_bdop U f -> hok (bd_do U b f).
Proof.
  intros Hf. destruct f; cbn [bd_do] in *; cbn in Hf;
    unfold bd_WithPageGenerator, bd_WithStatus, bd_WithHeaders, bd_WithHeader, bd_WithoutHeader, bd_WithContentType, bd_WithContentLanguage,
      bd_WithContentEncoding, bd_WithETag, bd_WithDigest, bd_WithBody, bd_WithJSON, bd_WithPrettyJSON, bd_WithProto, bd_WithProtoText,
      bd_WithError, bd_RedirectPage, bd_ErrorPage; cbv zeta; try (by pres_go).
  - apply h_encoded. apply (h_FromJSON _ false). done.
  - apply h_encoded. apply (h_FromJSON _ true). intros d -> _. by eapply Hf.
  - apply h_encoded. apply h_FromProto. intros d ->. exact (Hf _ _ _ eq_refl).
  - apply h_encoded. apply h_FromProto. intros d ->. exact (Hf _ _ _ eq_refl).
  - assert (forall g c, hok (gen_redirect U g c (TrimSpace location))) by (intros; by apply h_gen_redirect). pres_go.
  - assert (forall g e, hok (gen_error U g code e)) by (intros; by apply h_gen_error). pres_go.
Qed.
Lemma h_bd_Copy b : hok (bd_Copy U fuel b).
Proof. unfold bd_Copy. pres_go. Qed.
Lemma h_bd_Build b : hok (bd_Build U fuel b).
Proof. unfold bd_Build. cbv zeta. pres_go. Qed.
Lemma h_h_do f : hok (h_do U f).
Proof. destruct f; cbn [h_do]; cbv zeta; pres_go. by apply h_still. Qed.
Lemma h_NewWriter (k : option wid) b : hok (NewWriter U k b).
Proof.
  intros s. unfold NewWriter. destruct k as [k|]; [|reflexivity]. destruct (v_objs (h_w (s_h s)) !! k) as [[|u|x]|]; try reflexivity. by apply one_world.
Qed.
Lemma h_any_Write k p : hok (on_writer (any_Write U k p)).
Proof. apply h_writer, wv_any_Write. Qed.
Lemma h_Maybe k st : hok (on_writer (wrap_MaybeWriteHeader U k st)).
Proof. apply h_writer, wv_Maybe. Qed.
Lemma h_wrap_WriteHeader k st : hok (on_writer (wrap_WriteHeader U k st)).
Proof. apply h_writer, wv_wrap_WriteHeader. Qed.
Lemma h_raw_WriteHeader by_ u st : hok (on_writer (raw_WriteHeader U by_ u st)).
Proof. apply h_writer, wv_WriteHeader. Qed.
Lemma h_raw_Push by_ u url : hok (on_writer (raw_Push U by_ u url)).
Proof. apply h_writer, wv_Push. Qed.
Lemma h_raw_Flush by_ u : hok (on_writer (raw_Flush U by_ u)).
Proof. apply h_writer, wv_Flush. Qed.
Lemma h_wrap_Push k url : hok (on_writer (wrap_Push U k url)).
Proof. apply h_writer, wv_wrap_Push. Qed.
Lemma h_wrap_Flush k : hok (on_writer (wrap_Flush U k)).
Proof. apply h_writer, wv_wrap_Flush. Qed.
Lemma h_wput k x : hok (on_writer (wput k x)).
Proof. apply h_writer, wv_put. Qed.
Lemma h_log_u e : hok (log_u e).
Proof. intros s. unfold log_u. by apply one_world. Qed.
Lemma h_lookup_wrap k : hok (lookup_wrap k).
Proof. unfold lookup_wrap. pres_go. Qed.
Local Hint Resolve h_bd_Copy h_bd_Build h_h_do h_NewWriter h_any_Write h_Maybe h_wrap_WriteHeader h_raw_WriteHeader h_raw_Push h_raw_Flush h_wrap_Push h_wrap_Flush
  h_wput h_log_u h_lookup_wrap : pres.
Lemma h_readfrom_loop n u b last : hok (readfrom_loop U fuel n u b last).
Proof.
  revert last. induction n as [|n IH]; intros last; cbn [readfrom_loop]; [pres_go|]. intros s. cbv zeta.
  pose proof (ca_readfrom _ _ Hcalm (v_v (h_w (s_h s))) u last) as Hv. pose proof (Hrf (v_v (h_w (s_h s))) u last) as Hop.
  destruct (u_readfrom _ _ _ _) as [v [f|ans]]; cbn in *.
  - set (s1 := put_h s _). assert (Hs1 : hR s s1) by by apply one_world. etrans; [exact Hs1|]. pose proof (h_call b f (Hop _ _ eq_refl) s1) as H.
    destruct (body_call U fuel b f s1) as [s2 [r|e|]]; cbn in H; [etrans; [exact H|apply IH]..|done].
  - by apply one_world.
Qed.
Local Hint Resolve h_readfrom_loop : pres.
Lemma h_raw_ReadFrom by_ u b : hok (raw_ReadFrom U fuel by_ u b).
Proof. unfold raw_ReadFrom. pres_go. Qed.
Lemma read_len_call b p s s1 n q err : body_call U fuel b (Read p) s = (s1, ORet (RRead n q err)) -> zlen p <= max_slice -> zlen q <= max_slice.
Proof.
  unfold body_call, ybind, of_opt, body_cmd, yret, mpanic. destruct b as [i|]; [|done]. destruct (uexec _ _ _ _) as [h o] eqn:Hex.
  intros [= _ ->] Hp. apply uexec_ret, read_len in Hex. unfold zlen in *. by rewrite Hex.
Qed.
Lemma h_discard_loop n b buf t : zlen buf <= max_slice -> hok (discard_loop U fuel n b buf t).
Proof.
  revert buf t. induction n as [|n IH]; intros buf t Hb; cbn [discard_loop]; cbv zeta; [pres_go|]. intros s. unfold ybind.
  pose proof (h_call b (Read buf) Hb s) as H1. destruct (body_call U fuel b (Read buf) s) as [s1 [r|e|]] eqn:Hc; [|done|done]. cbn in H1.
  etrans; [exact H1|]. destruct r; try reflexivity. apply read_len_call in Hc; [|done]. destruct err as [[]|]; try reflexivity. by apply IH.
Qed.
Lemma h_copy_loop n k b buf t : zlen buf <= max_slice -> hok (copy_loop U fuel n k b buf t).
Proof.
  revert buf t. induction n as [|n IH]; intros buf t Hb; cbn [copy_loop]; cbv zeta; [pres_go|]. intros s. unfold ybind at 1.
  pose proof (h_call b (Read buf) Hb s) as H1. destruct (body_call U fuel b (Read buf) s) as [s1 [r|e|]] eqn:Hc; [|done|done]. cbn in H1.
  etrans; [exact H1|]. destruct r; try reflexivity. apply read_len_call in Hc; [|done]. specialize (IH p). clear H1. revert s1.
  assert (Hq : forall t, hok (copy_loop U fuel n k b p t)) by (intros; by apply IH). intros s1.
  match goal with |- hR s1 (fst (?m s1)) => enough (Hm : hok m) by apply Hm end.
  assert (Hs : hok (fun s2 : state V => match slice p 0 n0 with Some p => (s2, ORet p) | None => (s2, OPanic PRange) end)).
  { intros s2. destruct (slice _ _ _); reflexivity. }
  pres_go.
Qed.
Lemma h_write_to k b : hok (write_to U fuel k b).
Proof. unfold write_to. assert (hok (body_call U fuel b (WriteTo k))) by by apply h_call. pres_go. Qed.
Lemma h_discard b t : hok (discard_loop U fuel fuel b discard_buffer t).
Proof. apply h_discard_loop. unfold zlen, discard_buffer. rewrite replicate_length. unfold max_slice. lia. Qed.
Lemma h_copy k b t : hok (copy_loop U fuel fuel k b copy_buffer t).
Proof. apply h_copy_loop. unfold zlen, copy_buffer. rewrite replicate_length. unfold max_slice. lia. Qed.
Local Hint Resolve h_raw_ReadFrom h_discard h_copy h_write_to : pres.
Lemma h_copy_discard b : hok (copy_discard U fuel b).
Proof. unfold copy_discard. pres_go. Qed.
Local Hint Resolve h_copy_discard : pres.
Lemma h_wrap_ReadFrom k b : hok (wrap_ReadFrom U fuel k b).
Proof. unfold wrap_ReadFrom. pres_go. Qed.
Lemma h_any_WriteHeader k st : hok (any_WriteHeader U k st).
Proof. unfold any_WriteHeader. pres_go. Qed.
Lemma h_any_Push k url : hok (any_Push U k url).
Proof. unfold any_Push. pres_go. Qed.
Local Hint Resolve h_wrap_ReadFrom h_any_WriteHeader h_any_Push : pres.
Lemma h_any_ReadFrom k b : hok (any_ReadFrom U fuel k b).
Proof. unfold any_ReadFrom. pres_go. Qed.
Local Hint Resolve h_any_ReadFrom : pres.
Lemma h_io_Copy k b : hok (io_Copy U fuel k b).
Proof. unfold io_Copy. pres_go. Qed.
Lemma h_push_all k l : hok (push_all U k l).
Proof. induction l; cbn [push_all]; pres_go. Qed.
Lemma h_copy_to m x : hok (copy_to m x).
Proof. unfold copy_to. cbv zeta. pres_go. Qed.
Lemma h_rp_Copy x : hok (rp_Copy U fuel x).
Proof. unfold rp_Copy. pres_go. Qed.
Local Hint Resolve h_io_Copy h_push_all h_copy_to h_rp_Copy : pres.
Lemma h_rp_Serve x k : hok (rp_Serve U fuel x k).
Proof. unfold rp_Serve. pres_go. Qed.
Lemma h_w_do k f : hok (w_do U fuel k f).
Proof. unfold w_do. pres_go. Qed.
Local Hint Resolve h_rp_Serve h_w_do : pres.
Definition allowed (c : rcmd) : Prop := go_rcmd U c /\ forall c', c = RB c' -> G c'.
Lemma h_rdo c : allowed c -> hok (rdo U fuel c).
Proof.
  intros [Hc HG]. destruct c; cbn [rdo]; unfold NewBuilder; try (by pres_go).
  - assert (hok (body_cmd U fuel c)) by (apply h_body; eauto). pres_go.
  - assert (hok (on_heap U (fromJSONImpl src pretty))) by (apply h_FromJSON; intros d -> ->; exact Hc). pres_go.
  - assert (hok (on_heap U (FromProto raw))) by (apply h_FromProto; intros d ->; exact Hc). pres_go.
  - assert (hok (bd_do U b f)) by (apply h_bd_do; exact Hc). pres_go.
Qed.
Lemma h_mets l : hok (mets l).
Proof. induction l; cbn [mets]; pres_go. Qed.
Local Hint Resolve h_mets : pres.
Lemma h_run_handler f s : each allowed f -> hR s (run_handler U fuel f s).1.
Proof.
  revert s. induction f as [[r|]|[e|]|c k IH]; intros s Hf; cbn [run_handler]; try reflexivity.
  - destruct (s_rps s !! r); reflexivity.
  - destruct Hf as [Hc Hk]. pose proof (h_rdo c Hc s) as H. destruct (rdo U fuel c s) as [s1 [r|e|]]; cbn in H; [etrans; [exact H|by apply IH]..|done].
Qed.
Lemma h_defer ww pv : hok (adaptor_defer U ww pv).
Proof.
  unfold adaptor_defer. cbv zeta. assert (forall b e, hok (outside (fun v => let '(v, x) := u_onpanic U v b e in (v, opt_panic x)))).
  { intros b e. apply h_outside. intros v. pose proof (ca_onpanic _ _ Hcalm v b e) as H. by destruct (u_onpanic _ _ _ _). }
  pres_go.
Qed.
Lemma h_ServeHTTP f (k : option wid) b : each allowed f -> hok (ServeHTTP U fuel f k b).
Proof.
  intros Hf s. unfold ServeHTTP. pose proof (h_NewWriter k b s) as H1. destruct (NewWriter U k b s) as [s1 [ww|e|]]; cbn in H1; [|done|done].
  etrans; [exact H1|]. pose proof (h_run_handler f s1 Hf) as H2. destruct (run_handler U fuel f s1) as [s2 [[x|e|]|[]]]; cbn in H2.
  - etrans; [exact H2|]. pose proof (h_rp_Serve x ww s2) as H3. destruct (rp_Serve U fuel x ww s2) as [s3 [[e|]|e|]]; cbn in H3; try done; (etrans; [exact H3|apply h_defer]).
  - etrans; [exact H2|apply h_defer].
  - done.
  - etrans; [exact H2|apply h_defer].
Qed.
Lemma h_texec c : each_in allowed c -> hok (texec U fuel c).
Proof. destruct c; cbn [texec each_in]; intros Hc; [by apply h_rdo|]. apply pres_bind; [apply _|by apply h_ServeHTTP|]. intros. pres_go. Qed.
Lemma h_history s cs : Forall (each_in allowed) cs -> hR s (thistory U fuel s cs).1.
Proof.
  revert s. induction cs as [|c cs IH]; intros s Hcs; cbn [thistory]; [reflexivity|]. apply Forall_cons in Hcs as [Hc Hcs]. pose proof (h_texec c Hc s) as H1.
  destruct (texec U fuel c s) as [s1 o]; cbn in H1. specialize (IH s1 Hcs). destruct (thistory U fuel s1 cs) as [s2 os]. cbn in IH.
  destruct o; cbn; [by etrans..|done].
Qed.
End H.
