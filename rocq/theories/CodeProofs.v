(** * Status codes of Responses: proofs of C33 *)
From stdpp Require Import gmap.
From Coq Require Import ZifyBool.
From Verif Require Import BuilderSpec RespFacts.

Section Codes.
Context {V : Type} (U : uenv V) (fuel : nat).
Implicit Types (s : state V).

Definition bcode (x : builder) : Prop := bd_code x = 0 \/ 200 <= bd_code x <= 999.
Definition rcode (x : response) : Prop := 200 <= rp_code x <= 999.
Definition codes s : Prop := Forall bcode (s_bds s) /\ Forall rcode (s_rps s).
Definition cR s s' : Prop := codes s -> codes s'.
Global Instance cR_refl : Reflexive cR.
Proof. intros s H. exact H. Qed.
Global Instance cR_trans : Transitive cR.
Proof. intros s1 s2 s3 H1 H2 H. exact (H2 (H1 H)). Qed.
Notation cok := (pres cR).
Lemma c_still {A} (m : M A) : (forall s, s_bds (m s).1 = s_bds s /\ s_rps (m s).1 = s_rps s) -> cok m.
Proof. intros H s. unfold cR, codes. destruct (H s) as [-> ->]. done. Qed.
Lemma c_put_map m x : cok (put_map m x). Proof. by apply c_still. Qed.
Lemma c_make_map x : cok (make_map x). Proof. by apply c_still. Qed.
Lemma c_make_slice l n : cok (make_slice l n). Proof. by apply c_still. Qed.
Lemma c_append_to v x : cok (append_to U v x).
Proof. apply c_still. intros s. unfold append_to. destruct (sl_arr v); [destruct (_ <? _)%nat|]; done. Qed.
Lemma c_copyStrings v : cok (copyStrings v).
Proof. apply c_still. intros s. unfold copyStrings. destruct (_ =? _)%nat; done. Qed.
Lemma c_met x : cok (met x). Proof. by apply c_still. Qed.
Lemma c_on_heap {A} (m : prog A) : cok (on_heap U m).
Proof. apply c_still. intros s. unfold on_heap. by destruct (run _ _ _). Qed.
Lemma c_body c : cok (body_cmd U fuel c).
Proof. apply c_still. intros s. unfold body_cmd. by destruct (uexec _ _ _ _). Qed.
Lemma c_on_writer {A} (m : wm A) : cok (on_writer m).
Proof. apply c_still. intros s. unfold on_writer. by destruct (m _). Qed.
Lemma c_outside {A} (m : V -> V * (A + panic)) : cok (outside m).
Proof. apply c_still. intros s. unfold outside. by destruct (m _). Qed.
Lemma c_call b f : cok (body_call U fuel b f).
Proof. apply pres_bind; [apply _|by apply pres_of_opt; apply _|]. intros i. apply c_body. Qed.
Lemma c_NewWriter k b : cok (NewWriter U k b).
Proof. apply c_still. intros s. unfold NewWriter. destruct k as [k|]; [|done]. destruct (_ !! _) as [[]|]; done. Qed.
Lemma c_log_u e : cok (log_u e). Proof. by apply c_still. Qed.
Local Hint Resolve c_put_map c_make_map c_make_slice c_append_to c_copyStrings c_met c_on_heap c_body c_on_writer c_outside c_call c_NewWriter c_log_u : pres.
Lemma c_hdr_Set m key v : cok (hdr_Set m key v).
Proof. unfold hdr_Set. pres_go. Qed.
Lemma c_hdr_Add m key v : cok (hdr_Add U m key v).
Proof. unfold hdr_Add. pres_go. Qed.
Lemma c_hdr_Del m key : cok (hdr_Del m key).
Proof. unfold hdr_Del. pres_go. Qed.
Lemma c_copy_entries l x : cok (copy_entries l x).
Proof. revert x. induction l as [|[]]; intros; cbn [copy_entries]; pres_go. Qed.
Local Hint Resolve c_hdr_Set c_hdr_Add c_hdr_Del c_copy_entries : pres.
Lemma c_copyHeaders o : cok (copyHeaders o).
Proof. unfold copyHeaders. pres_go. Qed.
Lemma c_copyBody o : cok (copyBody U fuel o).
Proof. unfold copyBody. pres_go. Qed.
Lemma c_gen_redirect g c l : cok (gen_redirect U g c l).
Proof. unfold gen_redirect, default_redirect. pres_go. Qed.
Lemma c_gen_error g c l : cok (gen_error U g c l).
Proof. unfold gen_error, default_error. pres_go. Qed.
Lemma c_fill_in m key v : cok (fill_in m key v).
Proof. unfold fill_in. pres_go. Qed.
Lemma c_copy_to m x : cok (copy_to m x).
Proof. unfold copy_to. pres_go. Qed.
Lemma c_h_do f : cok (h_do U f).
Proof. destruct f; cbn [h_do]; cbv zeta; pres_go. all: intros s H; exact H. Qed.
Local Hint Resolve c_copyHeaders c_copyBody c_gen_redirect c_gen_error c_fill_in c_copy_to c_h_do : pres.

(** Calls with a property of the value they return. *)
Definition cret {A} (m : M A) (Q : A -> Prop) : Prop := forall s, codes s -> codes (m s).1 /\ forall a, (m s).2 = ORet a -> Q a.
Lemma cret_bind {A B} (m : M A) (k : A -> M B) Q Q' : cret m Q -> (forall a, Q a -> cret (k a) Q') -> cret (ybind m k) Q'.
Proof.
  intros Hm Hk s Hs. unfold ybind. destruct (Hm s Hs) as [H1 H2]. destruct (m s) as [s' [a|e|]]; cbn in *; [|done|done]. apply Hk; auto.
Qed.
Lemma cret_any {A} (m : M A) : cok m -> cret m (fun _ => True).
Proof. intros H s Hs. split; [by apply H|done]. Qed.
Lemma cok_of {A} (m : M A) Q : cret m Q -> cok m.
Proof. intros H s Hs. by apply H. Qed.
Lemma cret_the_bd b : cret (the_bd b) bcode.
Proof.
  intros s Hs. unfold the_bd. destruct (s_bds s !! b) as [x|] eqn:Hb; cbn; (split; [done|]); [|done]. intros a [= <-].
  destruct Hs as [Hs _]. rewrite Forall_lookup in Hs. by eapply Hs.
Qed.
Lemma cret_assert b : cret (massert b) (fun _ => b = true).
Proof. intros s Hs. by destruct b. Qed.
Lemma cret_set_bd b x : bcode x -> cret (set_bd b x) (fun _ => True).
Proof. intros Hx s [Hs Hr]. split; [|done]. split; [|done]. by apply Forall_insert. Qed.
Lemma cret_make_bd x : bcode x -> cret (make_bd x) (fun _ => True).
Proof. intros Hx s [Hs Hr]. split; [|done]. split; [|done]. apply Forall_app. split; [done|]. by apply Forall_singleton. Qed.
Lemma cret_make_rp x : rcode x -> cret (make_rp x) (fun _ => True).
Proof. intros Hx s [Hs Hr]. split; [|done]. split; [done|]. apply Forall_app. split; [done|]. by apply Forall_singleton. Qed.
Lemma cret_the_rp b : cret (the_rp b) rcode.
Proof.
  intros s Hs. unfold the_rp. destruct (s_rps s !! b) as [x|] eqn:Hb; cbn; (split; [done|]); [|done]. intros a [= <-].
  destruct Hs as [_ Hs]. rewrite Forall_lookup in Hs. by eapply Hs.
Qed.
Ltac cgo :=
  repeat match goal with
  | |- forall _, _ => intros ?
  | |- cret (ybind (the_bd _) _) _ => eapply cret_bind; [apply cret_the_bd|]
  | |- cret (ybind (the_rp _) _) _ => eapply cret_bind; [apply cret_the_rp|]
  | |- cret (ybind (massert _) _) _ => eapply cret_bind; [apply cret_assert|]
  | |- cret (ybind (set_bd _ _) _) _ => eapply cret_bind; [apply cret_set_bd|]
  | |- cret (ybind (make_bd _) _) _ => eapply cret_bind; [apply cret_make_bd|]
  | |- cret (ybind (make_rp _) _) _ => eapply cret_bind; [apply cret_make_rp|]
  | |- cret (set_bd _ _) _ => apply cret_set_bd
  | |- cret (make_bd _) _ => apply cret_make_bd
  | |- cret (make_rp _) _ => apply cret_make_rp
  | |- cret (mpanic _) _ => apply cret_any; pres_go
  | |- cret (yret _) _ => apply cret_any; pres_go
  | |- cret (match ?x with _ => _ end) _ => destruct x eqn:?
  | |- cret (ybind (match ?x with _ => _ end) _) _ => destruct x eqn:?
  | |- cret (ybind _ _) _ => eapply cret_bind; [apply cret_any; by pres_go|]
  | |- cret _ _ => apply cret_any; by pres_go
  end.
Lemma c_bd_Headers b : cok (bd_Headers b).
Proof. eapply (cok_of _ (fun _ => True)). unfold bd_Headers. cgo. done. Qed.
Local Hint Resolve c_bd_Headers : pres.
Lemma c_bd_do b f : cok (bd_do U b f).
Proof.
  eapply (cok_of _ (fun _ => True)).
  destruct f; cbn [bd_do];
    unfold bd_WithPageGenerator, bd_WithStatus, bd_WithHeaders, bd_WithHeader, bd_WithoutHeader, bd_WithContentType, bd_WithContentLanguage,
      bd_WithContentEncoding, bd_WithETag, bd_WithDigest, bd_WithBody, bd_WithJSON, bd_WithPrettyJSON, bd_WithProto, bd_WithProtoText,
      bd_encoded, bd_WithError, bd_RedirectPage, bd_ErrorPage; cbv zeta; cgo; unfold bcode in *; cbn; try done; try lia.
Qed.
Lemma c_bd_Copy b : cok (bd_Copy U fuel b).
Proof. eapply (cok_of _ (fun _ => True)). unfold bd_Copy. cgo. done. Qed.
Lemma c_bd_Build b : cok (bd_Build U fuel b).
Proof. eapply (cok_of _ (fun _ => True)). unfold bd_Build. cbv zeta. cgo; unfold bcode, rcode, StatusOK in *; cbn; try lia. all: destruct (bd_code _ =? 0) eqn:?; lia. Qed.
Lemma c_rp_Copy x : rcode x -> cok (rp_Copy U fuel x).
Proof. intros Hx. eapply (cok_of _ (fun _ => True)). unfold rp_Copy. cgo. done. Qed.
Lemma c_RCopy r : cok (rdo U fuel (RCopy r)).
Proof. eapply (cok_of _ (fun _ => True)). cbn [rdo]. eapply cret_bind; [apply cret_the_rp|]. intros x Hx. apply cret_any. apply pres_bind; [apply _|by apply c_rp_Copy|]. pres_go. Qed.
Local Hint Resolve c_bd_do c_bd_Copy c_bd_Build : pres.
Lemma c_make_new : cok (make_bd new_builder).
Proof. eapply cok_of, cret_make_bd. by left. Qed.
Local Hint Resolve c_make_new : pres.

Lemma c_readfrom_loop n u b last : cok (readfrom_loop U fuel n u b last).
Proof.
  revert last. induction n as [|n IH]; intros last; cbn [readfrom_loop]; [pres_go|]. intros s. cbv zeta. destruct (u_readfrom _ _ _ _) as [v [f|ans]]; cbn.
  - set (s1 := put_h s _). assert (Hs1 : cR s s1) by (intros H; exact H). etrans; [exact Hs1|]. pose proof (c_call b f s1) as H.
    destruct (body_call U fuel b f s1) as [s2 [r|e|]]; cbn in H; [etrans; [exact H|apply IH]..|exact H].
  - intros H. exact H.
Qed.
Lemma c_lookup_wrap k : cok (lookup_wrap k).
Proof. unfold lookup_wrap. pres_go. Qed.
Local Hint Resolve c_readfrom_loop c_lookup_wrap : pres.
Lemma c_raw_ReadFrom by_ u b : cok (raw_ReadFrom U fuel by_ u b).
Proof. unfold raw_ReadFrom. pres_go. Qed.
Lemma c_discard_loop n b buf t : cok (discard_loop U fuel n b buf t).
Proof. revert buf t. induction n as [|n IH]; intros; cbn [discard_loop]; cbv zeta; pres_go. Qed.
Lemma c_copy_loop n k b buf t : cok (copy_loop U fuel n k b buf t).
Proof.
  revert buf t. induction n as [|n IH]; intros; cbn [copy_loop]; cbv zeta; pres_go. intros s. destruct (slice _ _ _); reflexivity.
Qed.
Lemma c_write_to k b : cok (write_to U fuel k b).
Proof. unfold write_to. pres_go. Qed.
Local Hint Resolve c_raw_ReadFrom c_discard_loop c_copy_loop c_write_to : pres.
Lemma c_copy_discard b : cok (copy_discard U fuel b).
Proof. unfold copy_discard. pres_go. Qed.
Local Hint Resolve c_copy_discard : pres.
Lemma c_wrap_ReadFrom k b : cok (wrap_ReadFrom U fuel k b).
Proof. unfold wrap_ReadFrom. pres_go. Qed.
Lemma c_any_WriteHeader k st : cok (any_WriteHeader U k st).
Proof. unfold any_WriteHeader. pres_go. Qed.
Lemma c_any_Push k url : cok (any_Push U k url).
Proof. unfold any_Push. pres_go. Qed.
Local Hint Resolve c_wrap_ReadFrom c_any_WriteHeader c_any_Push : pres.
Lemma c_any_ReadFrom k b : cok (any_ReadFrom U fuel k b).
Proof. unfold any_ReadFrom. pres_go. Qed.
Local Hint Resolve c_any_ReadFrom : pres.
Lemma c_io_Copy k b : cok (io_Copy U fuel k b).
Proof. unfold io_Copy. pres_go. Qed.
Lemma c_push_all k l : cok (push_all U k l).
Proof. induction l; cbn [push_all]; pres_go. Qed.
Local Hint Resolve c_io_Copy c_push_all : pres.
Lemma c_rp_Serve x k : cok (rp_Serve U fuel x k).
Proof. unfold rp_Serve. pres_go. Qed.
Lemma c_w_do k f : cok (w_do U fuel k f).
Proof. unfold w_do. pres_go. Qed.
Local Hint Resolve c_rp_Serve c_w_do : pres.
Lemma c_rdo c : cok (rdo U fuel c).
Proof. destruct c; try apply c_RCopy; cbn [rdo]; unfold NewBuilder; pres_go. Qed.
Lemma c_mets l : cok (mets l).
Proof. induction l; cbn [mets]; pres_go. Qed.
Local Hint Resolve c_rdo c_mets : pres.
Lemma c_run_handler f s : cR s (run_handler U fuel f s).1.
Proof.
  revert s. induction f as [[r|]|[e|]|c k IH]; intros s; cbn [run_handler]; try reflexivity.
  - destruct (s_rps s !! r); reflexivity.
  - pose proof (c_rdo c s) as H. destruct (rdo U fuel c s) as [s1 [r|e|]]; cbn in H; [etrans; [exact H|apply IH]..|exact H].
Qed.
Lemma c_defer ww pv : cok (adaptor_defer U ww pv).
Proof. unfold adaptor_defer. cbv zeta. pres_go. Qed.
Lemma c_ServeHTTP f k b : cok (ServeHTTP U fuel f k b).
Proof.
  intros s. unfold ServeHTTP. pose proof (c_NewWriter k b s) as H1. destruct (NewWriter U k b s) as [s1 [ww|e|]]; cbn in H1; [|done|done].
  etrans; [exact H1|]. pose proof (c_run_handler f s1) as H2. destruct (run_handler U fuel f s1) as [s2 [[x|e|]|[]]]; cbn in H2.
  - etrans; [exact H2|]. pose proof (c_rp_Serve x ww s2) as H3. destruct (rp_Serve U fuel x ww s2) as [s3 [[e|]|e|]]; cbn in H3; try done; (etrans; [exact H3|apply c_defer]).
  - etrans; [exact H2|apply c_defer].
  - done.
  - etrans; [exact H2|apply c_defer].
Qed.
Lemma c_texec c : cok (texec U fuel c).
Proof. destruct c; cbn [texec]; [apply c_rdo|]. apply pres_bind; [apply _|apply c_ServeHTTP|]. intros. pres_go. Qed.
Lemma c_history s cs : cR s (thistory U fuel s cs).1.
Proof.
  revert s. induction cs as [|c cs IH]; intros s; cbn [thistory]; [reflexivity|]. pose proof (c_texec c s) as H1.
  destruct (texec U fuel c s) as [s1 o]; cbn in H1. specialize (IH s1). destruct (thistory U fuel s1 cs) as [s2 os]. cbn in IH.
  destruct o; cbn; [by etrans..|done].
Qed.
Lemma treaches_codes s : treaches U fuel s -> codes s.
Proof.
  intros (v & n & maps & arrs & cs & os & Hs & H). pose proof (c_history (tinitial v n maps arrs) cs) as Hw. rewrite H in Hw. apply Hw. split; cbn; constructor.
Qed.

(** ** Theorems *)
Theorem response_status : forall s r,
  treaches U fuel s -> (r < length (s_rps s))%nat ->
  exists c, texec U fuel (TDo (RStatusOf r)) s = (s, ORet (YInt c)) /\ 200 <= c <= 999.
Proof.
  intros s r Hs [x Hx]%lookup_lt_is_Some. exists (rp_code x). split; [cbn; unfold ybind, the_rp; by rewrite Hx|].
  apply treaches_codes in Hs as [_ Hs]. rewrite Forall_lookup in Hs. by eapply Hs.
Qed.
Theorem bad_status : forall s b c,
  (b < length (s_bds s))%nat -> ~ (200 <= c <= 999) ->
  texec U fuel (TDo (RBuilder b (WithStatus c))) s = (s, OPanic PAssert) /\
  forall err, texec U fuel (TDo (RBuilder b (ErrorPage c err))) s = (s, OPanic PAssert).
Proof.
  intros s b c [x Hx]%lookup_lt_is_Some Hc. cbn. unfold ybind, bd_WithStatus, bd_ErrorPage, the_bd, ybind, massert. rewrite Hx.
  destruct (c >=? 200) eqn:H1; [|done]. destruct (c <=? 999) eqn:H2; [lia|done].
Qed.
Theorem bad_redirect : forall s b c location,
  ~ (300 <= c <= 399) -> texec U fuel (TDo (RBuilder b (RedirectPage c location))) s = (s, OPanic PAssert).
Proof.
  intros s b c location Hc. cbn. unfold ybind, bd_RedirectPage, ybind, massert.
  destruct (c >=? 300) eqn:H1; [|done]. destruct (c <=? 399) eqn:H2; [lia|done].
Qed.
(** The status is that of the last call that set it, 200 if there was none. *)
Theorem built_status : forall s b x s' r,
  s_bds s !! b = Some x -> texec U fuel (TDo (RBuild b)) s = (s', ORet (YHandle (Some r))) ->
  texec U fuel (TDo (RStatusOf r)) s' = (s', ORet (YInt (if bd_code x =? 0 then 200 else bd_code x))).
Proof.
  intros s b x s' r Hx H. cbn [texec rdo] in H |- *. ystep H. injection H as -> ->. unfold bd_Build in E. ystep E.
  unfold the_bd in E0. rewrite Hx in E0. injection E0 as <- <-. ystep E. ystep E. cbv zeta in E. ystep E. ystep E. ystep E.
  destruct a3; try done. ystep E. unfold make_rp in E. injection E as <- <-.
  unfold ybind, the_rp. cbn. rewrite lookup_app_r, Nat.sub_diag by done. cbn. done.
Qed.
End Codes.
