(** * Only the Adaptor counts (proofs) *)
From stdpp Require Import gmap.
From Verif Require Import RespSpec RespFacts.

Section N.
Context {V : Type} (U : uenv V) (fuel : nat).
Implicit Types (s : state V).
Definition nR s s' : Prop := s_met s' = s_met s.
Global Instance nR_refl : Reflexive nR. Proof. by intros s. Qed.
Global Instance nR_trans : Transitive nR. Proof. intros s1 s2 s3. unfold nR. congruence. Qed.
Notation nok m := (pres nR m).

Lemma n_body c : nok (body_cmd U fuel c).
Proof. intros s. unfold body_cmd. by destruct (uexec _ _ _ _). Qed.
Lemma n_call b f : nok (body_call U fuel b f).
Proof. apply pres_bind; [apply _|by apply pres_of_opt; apply _|]. intros i. apply n_body. Qed.
Lemma n_heap {A} (m : prog A) : nok (on_heap U m).
Proof. intros s. unfold on_heap. by destruct (run _ _ _). Qed.
Lemma n_writer {A} (m : wm A) : nok (on_writer m).
Proof. intros s. unfold on_writer. by destruct (m _). Qed.
Lemma n_outside {A} (m : V -> V * (A + panic)) : nok (outside m).
Proof. intros s. unfold outside. by destruct (m _). Qed.
Lemma n_put_map m x : nok (put_map m x). Proof. by intros s. Qed.
Lemma n_make_map x : nok (make_map x). Proof. by intros s. Qed.
Lemma n_make_slice l n : nok (make_slice l n). Proof. by intros s. Qed.
Lemma n_append_to v x : nok (append_to U v x).
Proof. intros s. unfold append_to. destruct (sl_arr v); [destruct (_ <? _)%nat|]; done. Qed.
Lemma n_copyStrings v : nok (copyStrings v).
Proof. intros s. unfold copyStrings. destruct (_ =? _)%nat; done. Qed.
Lemma n_set_bd m x : nok (set_bd m x). Proof. by intros s. Qed.
Lemma n_make_bd x : nok (make_bd x). Proof. by intros s. Qed.
Lemma n_make_rp x : nok (make_rp x). Proof. by intros s. Qed.
Lemma n_log_u e : nok (log_u e). Proof. by intros s. Qed.
Local Hint Resolve n_put_map n_make_map n_make_slice n_append_to n_copyStrings n_set_bd n_make_bd n_make_rp n_call n_body n_heap n_writer n_outside n_log_u : pres.
Lemma n_copy_entries l dst : nok (copy_entries l dst).
Proof. revert dst. induction l as [|[key v] l IH]; intros dst; cbn; pres_go. Qed.
Local Hint Resolve n_copy_entries : pres.
Lemma n_copyHeaders o : nok (copyHeaders o).
Proof. unfold copyHeaders. pres_go. Qed.
Lemma n_copyBody o : nok (copyBody U fuel o).
Proof. unfold copyBody. pres_go. Qed.
Lemma n_hdr_Set m key v : nok (hdr_Set m key v).
Proof. unfold hdr_Set. pres_go. Qed.
Lemma n_hdr_Add m key v : nok (hdr_Add U m key v).
Proof. unfold hdr_Add. pres_go. Qed.
Lemma n_hdr_Del m key : nok (hdr_Del m key).
Proof. unfold hdr_Del. pres_go. Qed.
Local Hint Resolve n_copyHeaders n_copyBody n_hdr_Set n_hdr_Add n_hdr_Del : pres.
Lemma n_gen_redirect g c l : nok (gen_redirect U g c l).
Proof. unfold gen_redirect, default_redirect. pres_go. Qed.
Lemma n_gen_error g c e : nok (gen_error U g c e).
Proof. unfold gen_error, default_error. pres_go. Qed.
Lemma n_bd_Headers b : nok (bd_Headers b).
Proof. unfold bd_Headers. pres_go. Qed.
Lemma n_fill_in m key v : nok (fill_in m key v).
Proof. unfold fill_in. pres_go. Qed.
Local Hint Resolve n_bd_Headers n_fill_in n_gen_redirect n_gen_error : pres.
Lemma n_encoded b mk ct : nok (bd_encoded U b mk ct).
Proof. unfold bd_encoded. pres_go. Qed.
Local Hint Resolve n_encoded : pres.
Lemma n_bd_do b f : nok (bd_do U b f).
Proof.
  destruct f; cbn [bd_do];
    unfold bd_WithPageGenerator, bd_WithStatus, bd_WithHeaders, bd_WithHeader, bd_WithoutHeader, bd_WithContentType, bd_WithContentLanguage,
      bd_WithContentEncoding, bd_WithETag, bd_WithDigest, bd_WithBody, bd_WithJSON, bd_WithPrettyJSON, bd_WithProto, bd_WithProtoText,
      bd_WithError, bd_RedirectPage, bd_ErrorPage; cbv zeta; by pres_go.
Qed.
Lemma n_bd_Copy b : nok (bd_Copy U fuel b).
Proof. unfold bd_Copy. pres_go. Qed.
Lemma n_bd_Build b : nok (bd_Build U fuel b).
Proof. unfold bd_Build. cbv zeta. pres_go. Qed.
Lemma n_h_do f : nok (h_do U f).
Proof. destruct f; cbn [h_do]; cbv zeta; pres_go. by intros s. Qed.
Lemma n_NewWriter (k : option wid) b : nok (NewWriter U k b).
Proof. intros s. unfold NewWriter. destruct k as [k|]; [|reflexivity]. by destruct (v_objs (h_w (s_h s)) !! k) as [[|u|x]|]. Qed.
Lemma n_lookup_wrap k : nok (lookup_wrap k).
Proof. unfold lookup_wrap. pres_go. Qed.
Local Hint Resolve n_bd_do n_bd_Copy n_bd_Build n_h_do n_NewWriter n_lookup_wrap : pres.
Lemma n_readfrom_loop n u b last : nok (readfrom_loop U fuel n u b last).
Proof.
  revert last. induction n as [|n IH]; intros last; cbn [readfrom_loop]; [pres_go|]. intros s. cbv zeta.
  destruct (u_readfrom _ _ _ _) as [v [f|ans]]; cbn in *; [|done].
  set (s1 := put_h s _). assert (Hs1 : nR s s1) by done. etrans; [exact Hs1|]. pose proof (n_call b f s1) as H.
  destruct (body_call U fuel b f s1) as [s2 [r|e|]]; cbn in H; [etrans; [exact H|apply IH]..|done].
Qed.
Local Hint Resolve n_readfrom_loop : pres.
Lemma n_raw_ReadFrom by_ u b : nok (raw_ReadFrom U fuel by_ u b).
Proof. unfold raw_ReadFrom. pres_go. Qed.
Lemma n_discard_loop n b buf t : nok (discard_loop U fuel n b buf t).
Proof. revert buf t. induction n as [|n IH]; intros buf t; cbn [discard_loop]; cbv zeta; pres_go. Qed.
Lemma n_copy_loop n k b buf t : nok (copy_loop U fuel n k b buf t).
Proof.
  revert buf t. induction n as [|n IH]; intros buf t; cbn [copy_loop]; cbv zeta; [pres_go|].
  assert (Hs : forall (p : bytes) n0, nok (fun s2 : state V => match slice p 0 n0 with Some p => (s2, ORet p) | None => (s2, OPanic PRange) end)).
  { intros p n0 s2. destruct (slice _ _ _); reflexivity. }
  pres_go.
Qed.
Lemma n_write_to k b : nok (write_to U fuel k b).
Proof. unfold write_to. pres_go. Qed.
Local Hint Resolve n_raw_ReadFrom n_discard_loop n_copy_loop n_write_to : pres.
Lemma n_copy_discard b : nok (copy_discard U fuel b).
Proof. unfold copy_discard. pres_go. Qed.
Local Hint Resolve n_copy_discard : pres.
Lemma n_wrap_ReadFrom k b : nok (wrap_ReadFrom U fuel k b).
Proof. unfold wrap_ReadFrom. pres_go. Qed.
Lemma n_any_WriteHeader k st : nok (any_WriteHeader U k st).
Proof. unfold any_WriteHeader. pres_go. Qed.
Lemma n_any_Push k url : nok (any_Push U k url).
Proof. unfold any_Push. pres_go. Qed.
Local Hint Resolve n_wrap_ReadFrom n_any_WriteHeader n_any_Push : pres.
Lemma n_any_ReadFrom k b : nok (any_ReadFrom U fuel k b).
Proof. unfold any_ReadFrom. pres_go. Qed.
Local Hint Resolve n_any_ReadFrom : pres.
Lemma n_io_Copy k b : nok (io_Copy U fuel k b).
Proof. unfold io_Copy. pres_go. Qed.
Lemma n_push_all k l : nok (push_all U k l).
Proof. induction l; cbn [push_all]; pres_go. Qed.
Lemma n_copy_to m x : nok (copy_to m x).
Proof. unfold copy_to. cbv zeta. pres_go. Qed.
Lemma n_rp_Copy x : nok (rp_Copy U fuel x).
Proof. unfold rp_Copy. pres_go. Qed.
Local Hint Resolve n_io_Copy n_push_all n_copy_to n_rp_Copy : pres.
Lemma n_rp_Serve x k : nok (rp_Serve U fuel x k).
Proof. unfold rp_Serve. pres_go. Qed.
Lemma n_w_do k f : nok (w_do U fuel k f).
Proof. unfold w_do. pres_go. Qed.
Local Hint Resolve n_rp_Serve n_w_do : pres.
Lemma n_rdo c : nok (rdo U fuel c).
Proof. destruct c; cbn [rdo]; unfold NewBuilder; by pres_go. Qed.
End N.
