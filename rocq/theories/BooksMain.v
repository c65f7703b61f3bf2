(** * The books that the Adaptor keeps (proofs) *)
From stdpp Require Import gmap.
From Coq Require Import ZifyBool.
From Verif Require Import BooksSpec RespFacts Quiet WriterProofs WriterMain ServeMain AdaptorMain Metrics Safe RunFacts.

(** ** Programs that write to one Writer only *)
Fixpoint onto (j : wid) {A} (m : prog A) : Prop :=
  match m with
  | Ret _ | Panic _ | Spin => True
  | Do a k =>
      match a in act Y return (Y -> prog A) -> Prop with
      | CallWrite w _ => fun k => w = j /\ forall x, onto j (k x)
      | _ => fun k => forall x, onto j (k x)
      end k
  end.
Lemma onto_bind j {A B} (m : prog A) (k : A -> prog B) : onto j m -> (forall a, onto j (k a)) -> onto j (bind m k).
Proof.
  induction m as [a|e| |X a k' IH]; intros Hm Hk; cbn in *; auto.
  destruct a; try (intros y; by apply IH). destruct Hm as [H1 H2]. split; [done|]. intros y. by apply IH.
Qed.
Lemma onto_locked j {A} (m : prog A) l : onto j m -> onto j (locked l m).
Proof.
  intros H. cbn. intros _. induction m as [a|e| |X a k' IH]; cbn; auto. destruct a; cbn in *; auto. destruct H. auto.
Qed.
Lemma onto_WriteTo fuel o i j : onto j (method fuel o i (WriteTo j)).
Proof.
  destruct o as [|e|b|b|b|b]; try exact I; cbn [method]; unfold rwriteto.
  - apply onto_bind; [apply onto_locked|by intros []]. unfold empty_WriteTo. cbn. intros []; cbn; try exact I. repeat case_match; cbn; auto.
  - apply onto_bind; [apply onto_locked|by intros []]. apply onto_bind; [cbn; by intros []|]. intros x. cbv zeta. repeat case_match; try exact I.
    apply onto_bind; [by destruct (slice _ _ _)|]. intros src. apply onto_bind; [cbn; split; [done|]; by intros [[]|]|]. intros [n err].
    apply onto_bind; [by destruct (_ >=? _)|]. intros _. apply onto_bind; [by destruct (_ <=? _)|]. intros _. cbn. done.
Qed.

Section Books.
Context {V : Type} (U : uenv V) (fuel : nat).
Notation E := (wenv U).
Implicit Types (s : state V) (w : wst V).

(** ** Calls that leave the Writers alone *)
Definition sR s s' : Prop := still (world s) (world s').
Global Instance sR_refl : Reflexive sR.
Proof. by intros s. Qed.
Global Instance sR_trans : Transitive sR.
Proof. intros s1 s2 s3 [A1 B1] [A2 B2]. split; congruence. Qed.
Lemma still_run {A} (Q : A -> Prop) (m : prog A) : quiet Q m -> forall h, still (h_w h) (h_w (run E h m).1).
Proof.
  revert Q. induction m as [a|e| |X a k IH]; intros Q Hm h; cbn [run]; try done.
  destruct (act_step E h a) as [[h1 x]|] eqn:Ha; [|done].
  assert (exists Q', quiet Q' (k x)) as [Q' Hk] by (destruct a; cbn in Hm; try done; eauto).
  assert (H1 : still (h_w h) (h_w h1)).
  { clear IH Hk. destruct a; cbn in Ha, Hm; try done; repeat case_match; simplify_eq/=; done. }
  destruct (IH x Q' Hk h1) as [I1 I2]. destruct H1 as [J1 J2]. split; congruence.
Qed.
Lemma q_FromBytes d : quiet T (FromBytes d).
Proof. unfold FromBytes, Empty. quiet_go. Qed.
Lemma q_cmd (h : heap (wst V)) c : off_writers (RB c) -> quiet T (cmd_prog fuel h c).
Proof.
  assert (Hr : forall r len, quiet T (rfrom (FromReaderAndLength r len))).
  { intros r len. unfold rfrom, FromReaderAndLength. quiet_go; unfold readerAt_ref, seeker_ref, buffered_ref; repeat (first [qld|quiet1]; cbv zeta). }
  destruct c; cbn [cmd_prog off_writers]; intros Hc; try apply Hr;
    try (unfold rnew, rfrom, AlreadyClosed, Empty, FromBytes, FromString, FromReader_Body, Empty; quiet_go; fail).
  destruct (_ !! _); [|exact I]. apply q_method. by intros w ->.
Qed.
Lemma st_still {A} (m : M A) : (forall s, world (m s).1 = world s) -> pres sR m.
Proof. intros H s. unfold sR. by rewrite H. Qed.
Lemma st_heap {A} (m : prog A) : quiet T m -> pres sR (on_heap U m).
Proof. intros Hq s. unfold on_heap, sR, world. pose proof (still_run _ m Hq (s_h s)) as H. destruct (run _ _ _). done. Qed.
Lemma st_body c : off_writers (RB c) -> pres sR (body_cmd U fuel c).
Proof.
  intros Hc s. unfold body_cmd, uexec, xexec, sR, world. pose proof (quiet_still U _ _ (q_cmd (s_h s) c Hc) (s_h s)) as H. destruct (xrun _ _ _ _). done.
Qed.
Lemma st_call b f : (forall k, f <> WriteTo k) -> pres sR (body_call U fuel b f).
Proof. intros Hf. apply pres_bind; [apply _|by apply pres_of_opt; apply _|]. intros i. apply st_body. cbn. destruct f; try done. by destruct (Hf w). Qed.
Lemma st_outside {A} (m : V -> V * (A + panic)) : pres sR (outside m).
Proof. intros s. unfold outside, sR, world. by destruct (m _) as [v x]. Qed.
Lemma st_put_map m x : pres sR (put_map m x). Proof. by apply st_still. Qed.
Lemma st_make_map x : pres sR (make_map x). Proof. by apply st_still. Qed.
Lemma st_make_slice l n : pres sR (make_slice l n). Proof. by apply st_still. Qed.
Lemma st_append_to v x : pres sR (append_to U v x).
Proof. apply st_still. intros s. unfold append_to. destruct (sl_arr v); [destruct (_ <? _)%nat|]; done. Qed.
Lemma st_copyStrings v : pres sR (copyStrings v).
Proof. apply st_still. intros s. unfold copyStrings. destruct (_ =? _)%nat; done. Qed.
Lemma st_set_bd m x : pres sR (set_bd m x). Proof. by apply st_still. Qed.
Lemma st_make_bd x : pres sR (make_bd x). Proof. by apply st_still. Qed.
Lemma st_make_rp x : pres sR (make_rp x). Proof. by apply st_still. Qed.
Lemma st_Copy b : pres sR (body_call U fuel b Copy). Proof. by apply st_call. Qed.
Lemma st_Close b : pres sR (body_call U fuel b Close). Proof. by apply st_call. Qed.
Lemma st_Remaining b : pres sR (body_call U fuel b BytesRemaining). Proof. by apply st_call. Qed.
Lemma st_Read b p : pres sR (body_call U fuel b (Read p)). Proof. by apply st_call. Qed.
Lemma st_FromBytes d : pres sR (on_heap U (FromBytes d)). Proof. apply st_heap, q_FromBytes. Qed.
Lemma st_JSON x p : pres sR (on_heap U (fromJSONImpl x p)).
Proof. apply st_heap. destruct x; [apply q_FromBytes|exact I]. Qed.
Lemma st_JSON1 x : pres sR (on_heap U (FromJSON x)). Proof. apply st_JSON. Qed.
Lemma st_JSON2 x : pres sR (on_heap U (FromPrettyJSON x)). Proof. apply st_JSON. Qed.
Lemma st_Proto x : pres sR (on_heap U (FromProto x)).
Proof. apply st_heap. destruct x as [[]|]; [apply q_FromBytes|exact I..]. Qed.
Local Hint Resolve st_put_map st_make_map st_make_slice st_append_to st_copyStrings st_set_bd st_make_bd st_make_rp st_outside
  st_Copy st_Close st_Remaining st_Read st_FromBytes st_JSON st_JSON1 st_JSON2 st_Proto : pres.
Lemma st_copy_entries l dst : pres sR (copy_entries l dst).
Proof. revert dst. induction l as [|[key v] l IH]; intros dst; cbn; pres_go. Qed.
Local Hint Resolve st_copy_entries : pres.
Lemma st_copyHeaders o : pres sR (copyHeaders o).
Proof. unfold copyHeaders. pres_go. Qed.
Lemma st_copyBody o : pres sR (copyBody U fuel o).
Proof. unfold copyBody. pres_go. by apply st_body. Qed.
Lemma st_new d : pres sR (body_cmd U fuel (NewBytes d)). Proof. by apply st_body. Qed.
Local Hint Resolve st_new : pres.
Lemma st_hdr_Set m key v : pres sR (hdr_Set m key v).
Proof. unfold hdr_Set. pres_go. Qed.
Lemma st_hdr_Add m key v : pres sR (hdr_Add U m key v).
Proof. unfold hdr_Add. pres_go. Qed.
Lemma st_hdr_Del m key : pres sR (hdr_Del m key).
Proof. unfold hdr_Del. pres_go. Qed.
Local Hint Resolve st_copyHeaders st_copyBody st_hdr_Set st_hdr_Add st_hdr_Del : pres.
Lemma st_gen_redirect g c l : pres sR (gen_redirect U g c l).
Proof. unfold gen_redirect, default_redirect. pres_go. Qed.
Lemma st_gen_error g c l : pres sR (gen_error U g c l).
Proof. unfold gen_error, default_error. pres_go. Qed.
Lemma st_bd_Headers b : pres sR (bd_Headers b).
Proof. unfold bd_Headers. pres_go. Qed.
Lemma st_fill_in m key v : pres sR (fill_in m key v).
Proof. unfold fill_in. pres_go. Qed.
Local Hint Resolve st_gen_redirect st_gen_error st_bd_Headers st_fill_in : pres.
Lemma st_bd_do b f : pres sR (bd_do U b f).
Proof.
  destruct f; cbn [bd_do];
    unfold bd_WithPageGenerator, bd_WithStatus, bd_WithHeaders, bd_WithHeader, bd_WithoutHeader, bd_WithContentType, bd_WithContentLanguage,
      bd_WithContentEncoding, bd_WithETag, bd_WithDigest, bd_WithBody, bd_WithJSON, bd_WithPrettyJSON, bd_WithProto, bd_WithProtoText,
      bd_encoded, bd_WithError, bd_RedirectPage, bd_ErrorPage; cbv zeta; pres_go.
Qed.
Lemma st_bd_Copy b : pres sR (bd_Copy U fuel b).
Proof. unfold bd_Copy. pres_go. Qed.
Lemma st_bd_Build b : pres sR (bd_Build U fuel b).
Proof. unfold bd_Build. cbv zeta. pres_go. Qed.
Lemma st_h_do f : pres sR (h_do U f).
Proof. destruct f; cbn [h_do]; cbv zeta; pres_go. by apply st_still. Qed.
Lemma st_copy_to m x : pres sR (copy_to m x).
Proof. unfold copy_to. cbv zeta. pres_go. Qed.
Lemma st_rp_Copy x : pres sR (rp_Copy U fuel x).
Proof. unfold rp_Copy. pres_go. Qed.
Local Hint Resolve st_bd_do st_bd_Copy st_bd_Build st_h_do st_copy_to st_rp_Copy : pres.
Lemma st_rdo c : off_writers c -> pres sR (rdo U fuel c).
Proof.
  destruct c; intros Hc; try done; cbn [rdo]; unfold NewBuilder; try (pres_go; fail).
  apply pres_bind; [apply _|by apply st_body|]. pres_go.
Qed.
Lemma st_discard_loop n b buf t : pres sR (discard_loop U fuel n b buf t).
Proof. revert buf t. induction n as [|n IH]; intros; cbn [discard_loop]; cbv zeta; pres_go. Qed.
Hypothesis Hrf : reads_only U.
Lemma st_readfrom_loop n u b last : pres sR (readfrom_loop U fuel n u b last).
Proof.
  revert last. induction n as [|n IH]; intros last; cbn [readfrom_loop]; [pres_go|]. intros s. cbv zeta. destruct (u_readfrom _ _ _ _) as [v [f|ans]] eqn:Hu; cbn.
  - set (s1 := put_h s _). assert (Hs1 : sR s s1) by done. etrans; [exact Hs1|]. pose proof (st_call b f ltac:(intros k; by eapply Hrf) s1) as H.
    destruct (body_call U fuel b f s1) as [s2 [r|e|]]; cbn in H; [etrans; [exact H|apply IH]..|done].
  - done.
Qed.

(** ** Serve: all is sent by the Writer [k] *)
Section One.
Context (k : wid).
Definition based w : Prop := (exists x, v_objs w !! k = Some (WWrap x)) /\ v_objs w !! 0%nat = Some WDiscard.
Definition wq w w' : Prop := based w -> based w' /\ exists l, v_log w' = v_log w ++ l /\ Forall (fun e => concerns e = Some k) l.
Lemma wq_still w w' : still w w' -> wq w w'.
Proof. intros [H1 H2] Hb. unfold based in *. rewrite H1. split; [done|]. exists []. by rewrite app_nil_r. Qed.
Lemma wq_refl w : wq w w.
Proof. by apply wq_still. Qed.
Lemma wq_trans w1 w2 w3 : wq w1 w2 -> wq w2 w3 -> wq w1 w3.
Proof.
  intros H1 H2 Hb. destruct (H1 Hb) as (B2 & l1 & E1 & F1). destruct (H2 B2) as (B3 & l2 & E2 & F2). split; [done|].
  exists (l1 ++ l2). rewrite E2, E1, app_assoc. split; [done|]. by apply Forall_app.
Qed.
Lemma wq_note w v e : concerns e = Some k -> wq w (note w v e).
Proof. intros He Hb. split; [done|]. exists [e]. split; [done|]. by repeat constructor. Qed.
Lemma wq_put w x : wq w (put_obj w k x).
Proof.
  intros [[y Hy] H0]. split; [|exists []; cbn; by rewrite app_nil_r]. split; [exists x; cbn; apply list_lookup_insert; by eapply lookup_lt_Some|].
  cbn. rewrite list_lookup_insert_ne; [done|]. intros Hk. assert (Hc : Some (WWrap y) = Some WDiscard) by (etrans; [symmetry; exact Hy|]; etrans; [|exact H0]; by rewrite Hk). done.
Qed.
Definition wqm {A} (m : wm A) : Prop := forall w, wq w (m w).1.
Lemma qm_bind {A B} (m : wm A) (f : A -> wm B) : wqm m -> (forall a, wqm (f a)) -> wqm (wbind m f).
Proof. intros Hm Hf w. unfold wbind. specialize (Hm w). destruct (m w) as [w' [a|e]]; cbn in *; [|done]. eapply wq_trans; [done|apply Hf]. Qed.
Lemma qm_ret {A} (a : A) : wqm (wret a). Proof. intros w. apply wq_refl. Qed.
Lemma qm_panic {A} e : wqm (@wpanic V A e). Proof. intros w. apply wq_refl. Qed.
Lemma qm_assert b : wqm (wassert b). Proof. destruct b; [apply qm_ret|apply qm_panic]. Qed.
Lemma qm_get j : wqm (wget j). Proof. intros w. unfold wget. destruct (_ !! _) as [[]|]; apply wq_refl. Qed.
Lemma qm_put x : wqm (wput k x). Proof. intros w. apply wq_put. Qed.
Lemma qm_note e : concerns e = Some k -> wqm (wnote e). Proof. intros He w. by apply wq_note. Qed.
Lemma qm_Write u p : wqm (raw_Write U (Some k) u p).
Proof. intros w. unfold raw_Write. destruct (ev_write _ _ _ _). by apply wq_note. Qed.
Lemma qm_WriteHeader u p : wqm (raw_WriteHeader U (Some k) u p).
Proof. intros w. unfold raw_WriteHeader. destruct (u_writeheader _ _ _ _). by apply wq_note. Qed.
Lemma qm_Push u p : wqm (raw_Push U (Some k) u p).
Proof. intros w. unfold raw_Push. destruct (u_push _ _ _ _). by apply wq_note. Qed.
Ltac qm := repeat first
  [ apply qm_ret | apply qm_panic | apply qm_assert | apply qm_get | apply qm_put | apply qm_Write | apply qm_WriteHeader | apply qm_Push
  | apply qm_note; reflexivity | apply qm_bind; [|intros ?]
  | match goal with |- wqm (if ?b then _ else _) => destruct b | |- wqm (match ?x with _ => _ end) => destruct x end ].
Lemma qm_Maybe st : wqm (wrap_MaybeWriteHeader U k st).
Proof. unfold wrap_MaybeWriteHeader, writeHeaderImpl. qm. Qed.
Lemma qm_wrap_WriteHeader st : wqm (wrap_WriteHeader U k st).
Proof. unfold wrap_WriteHeader, writeHeaderImpl. qm. Qed.
Lemma qm_wrap_Write p : wqm (wrap_Write U k p).
Proof. unfold wrap_Write. apply qm_bind; [apply qm_Maybe|intros _]. qm. Qed.
Lemma qm_wrap_Push url : wqm (wrap_Push U k url).
Proof. unfold wrap_Push. qm. Qed.
Lemma wq_need w w' : (based w -> wq w w') -> wq w w'.
Proof. intros H Hb. by apply H. Qed.
Lemma qm_any_Write p : wqm (any_Write U k p).
Proof. intros w. apply wq_need. intros [[x Hx] _]. unfold any_Write. rewrite Hx. apply qm_wrap_Write. Qed.
Lemma qm_discard p : wqm (any_Write U 0%nat p).
Proof. intros w. apply wq_need. intros [_ H0]. unfold any_Write. assert (H1 : v_objs w !! (0%nat : wid) = Some WDiscard) by exact H0. rewrite H1. apply wq_refl. Qed.

Definition qR s s' : Prop := wq (world s) (world s').
Global Instance qR_refl : Reflexive qR.
Proof. intros s. apply wq_refl. Qed.
Global Instance qR_trans : Transitive qR.
Proof. intros s1 s2 s3. apply wq_trans. Qed.
Lemma q_of {A} (m : M A) : pres sR m -> pres qR m.
Proof. intros H s. apply wq_still, H. Qed.
Lemma q_writer {A} (m : wm A) : wqm m -> pres qR (on_writer m).
Proof. intros H s. unfold on_writer, qR. specialize (H (world s)). unfold world in *. destruct (m _) as [w [a|e]]; cbn in *; done. Qed.
Lemma q_onto j {A} (m : prog A) : (forall p, wqm (any_Write U j p)) -> onto j m -> forall h, wq (h_w h) (h_w (xrun E (whazard U) h m).1).
Proof.
  intros Hj. induction m as [a|e| |X a f IH]; intros Hm h; cbn [xrun]; try apply wq_refl.
  destruct (hits (whazard U) h a) as [[w e]|] eqn:Hh.
  { unfold hits, whazard in Hh. destruct (call_of a); [|done]. destruct (u_hazard _ _ _) as [[v e']|]; [|done]. injection Hh as <- <-. by apply wq_still. }
  destruct (act_step E h a) as [[h1 x]|] eqn:Ha; [|apply wq_refl].
  assert (Hk : onto j (f x)) by (destruct a; cbn in Hm; try done; by destruct Hm).
  eapply wq_trans; [|by apply IH]. clear IH Hk Hh.
  destruct a; cbn in Ha, Hm; repeat case_match; simplify_eq/=; try (by apply wq_still).
  destruct Hm as [-> _]. match goal with H : any_Write U ?a ?b ?c = _ |- _ => pose proof (Hj b c) as Hw; rewrite H in Hw end. done.
Qed.
Lemma q_WriteTo j b : (forall p, wqm (any_Write U j p)) -> pres qR (body_call U fuel b (WriteTo j)).
Proof.
  intros Hj. apply pres_bind; [apply _|by apply pres_of_opt; apply _|]. intros i s. unfold body_cmd, uexec, xexec, qR, world.
  assert (Ho : onto j (cmd_prog fuel (s_h s) (Call i (WriteTo j)))) by (cbn; destruct (_ !! _); [apply onto_WriteTo|exact I]).
  pose proof (q_onto j _ Hj Ho (s_h s)) as H. destruct (xrun _ _ _ _). done.
Qed.
Lemma q_to b : pres qR (body_call U fuel b (WriteTo k)). Proof. apply q_WriteTo, qm_any_Write. Qed.
Lemma q_to0 b : pres qR (body_call U fuel b (WriteTo 0)). Proof. apply q_WriteTo, qm_discard. Qed.
Lemma q_Close b : pres qR (body_call U fuel b Close). Proof. apply q_of, st_Close. Qed.
Lemma q_Read b p : pres qR (body_call U fuel b (Read p)). Proof. apply q_of, st_Read. Qed.
Lemma q_discard_loop n b buf t : pres qR (discard_loop U fuel n b buf t). Proof. apply q_of, st_discard_loop. Qed.
Lemma q_readfrom_loop n u b last : pres qR (readfrom_loop U fuel n u b last). Proof. apply q_of, st_readfrom_loop. Qed.
Lemma q_copy_to m x : pres qR (copy_to m x). Proof. apply q_of, st_copy_to. Qed.
Lemma q_Write p : pres qR (on_writer (any_Write U k p)). Proof. apply q_writer, qm_any_Write. Qed.
Lemma q_Maybe st : pres qR (on_writer (wrap_MaybeWriteHeader U k st)). Proof. apply q_writer, qm_Maybe. Qed.
Lemma q_wput x : pres qR (on_writer (wput k x)). Proof. apply q_writer, qm_put. Qed.
Lemma q_log e : concerns e = Some k -> pres qR (log_u e).
Proof. intros He s. by apply wq_note. Qed.
Lemma q_log1 u i : pres qR (log_u (UReadFrom (Some k) u i)). Proof. by apply q_log. Qed.
Lemma q_log2 u i : pres qR (log_u (UReadFromEnd (Some k) u i)). Proof. by apply q_log. Qed.
Lemma q_lookup_wrap j : pres qR (lookup_wrap j).
Proof. unfold lookup_wrap. pres_go. Qed.
Local Hint Resolve q_to q_to0 q_Close q_Read q_discard_loop q_readfrom_loop q_copy_to q_Write q_Maybe q_wput q_log1 q_log2 q_lookup_wrap : pres.
Lemma q_copy_discard b : pres qR (copy_discard U fuel b).
Proof. unfold copy_discard, write_to. pres_go. Qed.
Local Hint Resolve q_copy_discard : pres.
Lemma q_wrap_ReadFrom b : pres qR (wrap_ReadFrom U fuel k b).
Proof. unfold wrap_ReadFrom, raw_ReadFrom. pres_go. Qed.
Lemma q_need {A} (m : M A) : (forall s, based (world s) -> qR s (m s).1) -> pres qR m.
Proof. intros H s. apply wq_need. apply H. Qed.
Lemma q_any_ReadFrom b : pres qR (any_ReadFrom U fuel k b).
Proof. apply q_need. intros s [[x Hx] _]. unfold any_ReadFrom, ybind, lookup_w. fold (world s). rewrite Hx. apply q_wrap_ReadFrom. Qed.
Lemma q_any_WriteHeader st : pres qR (any_WriteHeader U k st).
Proof. apply q_need. intros s [[x Hx] _]. unfold any_WriteHeader, ybind, lookup_w. fold (world s). rewrite Hx. apply q_writer, qm_wrap_WriteHeader. Qed.
Lemma q_any_Push url : pres qR (any_Push U k url).
Proof. apply q_need. intros s [[x Hx] _]. unfold any_Push, ybind, lookup_w. fold (world s). rewrite Hx. apply q_writer, qm_wrap_Push. Qed.
Local Hint Resolve q_any_ReadFrom q_any_WriteHeader q_any_Push : pres.
Lemma q_copy_loop n b buf t : pres qR (copy_loop U fuel n k b buf t).
Proof. revert buf t. induction n as [|n IH]; intros; cbn [copy_loop]; cbv zeta; pres_go. intros s. destruct (slice _ _ _); reflexivity. Qed.
Local Hint Resolve q_copy_loop : pres.
Lemma q_io_Copy b : pres qR (io_Copy U fuel k b).
Proof. unfold io_Copy, write_to. pres_go. Qed.
Lemma q_push_all l : pres qR (push_all U k l).
Proof. induction l; cbn [push_all]; pres_go. Qed.
Local Hint Resolve q_io_Copy q_push_all : pres.
Lemma q_rp_Serve x : pres qR (rp_Serve U fuel x k).
Proof. unfold rp_Serve. pres_go. Qed.
Lemma q_texec_serve r : pres qR (texec U fuel (TDo (RServe r k))).
Proof. cbn [texec rdo]. pose proof q_rp_Serve. pres_go. Qed.
Lemma q_texec_zero st : pres qR (texec U fuel (TDo (RWriter k (WWriteHeader st)))).
Proof. cbn [texec rdo]. unfold w_do. pres_go. Qed.
Lemma q_handled inner s s2 x : each off_writers inner -> handled U fuel k inner s s2 x -> qR s s2.
Proof.
  intros Ho H. induction H as [c f o s s1 s2 x Hc Hns Hh IH|e s|s|r s s' e Hc|r s s' e Hc|s s' e Hc]; cbn in Ho.
  - destruct Ho as [Hc0 Ho]. etrans; [|by apply IH]. apply wq_still. pose proof (st_rdo c Hc0 s) as H. cbn [texec] in Hc. rewrite Hc in H. exact H.
  - reflexivity.
  - reflexivity.
  - pose proof (q_texec_serve r s) as H. by rewrite Hc in H.
  - pose proof (q_texec_serve r s) as H. by rewrite Hc in H.
  - pose proof (q_texec_zero 0 s) as H. by rewrite Hc in H.
Qed.
End One.

(** ** One request *)
Lemma sent_fresh k (w : wst V) : winv U w -> (length (v_objs w) <= k)%nat -> sent_by k (v_log w) = [].
Proof.
  intros [_ H] Hk. unfold sent_by. apply elem_of_nil_inv. intros e [Hm He]%elem_of_list_filter. rewrite Forall_forall in H. specialize (H e He).
  rewrite Hm in H. destruct e; try done; lia.
Qed.
Lemma of_one k l : Forall (fun e => concerns e = Some k) l -> statuses_in (sent_by k l) = statuses_in l /\ total_accepted (sent_by k l) = total_accepted l.
Proof.
  induction 1 as [|e l He _ [IH1 IH2]]; [done|]. unfold sent_by in *. destruct (decide (made_by e = Some k)) as [Hm|Hm].
  - rewrite filter_cons_True by done. unfold total_accepted in *. cbn. rewrite IH2. split; [|done]. unfold statuses_in in *. destruct e; cbn; by rewrite ?IH1.
  - rewrite filter_cons_False by done. destruct e; cbn in He, Hm; try congruence. rewrite IH1, IH2. done.
Qed.
Lemma total_app l l' : total_accepted (l ++ l') = total_accepted l + total_accepted l'.
Proof. unfold total_accepted. rewrite map_app, foldr_app. induction (map accepted l); cbn; lia. Qed.
Lemma total_pos l : 0 <= total_accepted l.
Proof.
  induction l as [|e l IH]; [done|]. unfold total_accepted in *. cbn. assert (0 <= accepted e); [|lia].
  destruct e as [| |? ? ? [[n ?]|]| | | |? ? [[n ?]|]]; cbn; try lia; destruct (n <? 0) eqn:Hn; lia.
Qed.
Hypothesis H500 : forall v u, (u_writeheader U v u 500).2 = None.
Definition booked (u : uid) (m : list metric) (l : list uev) : Prop :=
  exists st lab, statuses_in l = [(u, st)] /\ requests_in m = [lab] /\ labelled lab (u, st) /\ sent_in m = [wrap64 (total_accepted l)] /\
    panics_in m = length (onpanics_in m) /\ (panics_in m <= 1)%nat.
Lemma request_books s k u inner isHEAD s' o : winv U (world s) -> v_objs (world s) !! 0%nat = Some WDiscard -> v_objs (world s) !! (k : wid) = Some (WRaw u) ->
  each off_writers inner -> texec U fuel (TServe inner (Some k) isHEAD) s = (s', o) -> o <> OSpin ->
  exists m l, s_met s' = s_met s ++ m /\ wlog s' = wlog s ++ l /\ booked u m l.
Proof.
  intros Hwi H0 Hk Ho HT Hns. assert (Ht : target s k = Some (None, u)) by (unfold target; by rewrite Hk).
  destruct (serve_http U fuel inner k None u isHEAD s s' o Hwi Ht HT Hns) as (s1 & k' & s2 & x & y & o1 & Hn & Hwi1 & Hy & Hyu & Hh & Hm1 & Hd & _).
  assert (Hs1 : k' = length (v_objs (world s)) /\ v_objs (world s1) !! 0%nat = Some WDiscard /\ wlog s1 = wlog s).
  { cbn in Hn. unfold ybind, NewWriter in Hn. fold (world s) in Hn. rewrite Hk in Hn. injection Hn as <- <-. split; [done|]. split; [|done].
    cbn. rewrite lookup_app_l; [exact H0|]. by eapply lookup_lt_Some. }
  destruct Hs1 as (Hk' & H01 & Hl1).
  destruct (handled_steps U fuel _ _ _ _ _ Hh) as [Hst Hm2]. destruct (Hst Hwi1) as [Hwi2 (_ & _ & _ & Hgr)].
  destruct (Hgr k' y Hy) as (y2 & Hk2 & _ & Hyu2 & _). clear Hst Hgr.
  destruct (q_handled k' inner s1 s2 x Ho Hh) as (_ & l2 & Hl2 & Hc2); [split; [by exists y|done]|]. change (v_log (world s2)) with (wlog s2) in Hl2. change (v_log (world s1)) with (wlog s1) in Hl2.
  destruct (defer_run U s2 k' y2 (ended x) s' o1 Hk2 Hd) as ((z & Hz & Hzs & Hzu) & Hl' & [(e & _ & _ & He & _)|[Hmet _]]); [by rewrite H500 in He|].
  set (new := if ww_status y2 =? 0 then _ else _) in Hl'.
  assert (Hcn : Forall (fun e => concerns e = Some k') new) by (unfold new; destruct (_ =? _); by repeat constructor).
  assert (Hfresh : sent_by k' (wlog s) = []) by (apply sent_fresh; [done|lia]).
  assert (Hsent : forall l, sent_by k' (wlog s ++ l) = sent_by k' l) by (intros l; rewrite sent_by_app, Hfresh; done).
  exists (counts (itoa (ww_status y2)) (ww_bytes y2) (ended x) ++ match ended x with Some e => [MOnPanic (negb (is_go_error e)) e] | None => [] end), (l2 ++ new).
  split; [rewrite Hmet, Hm2, Hm1; done|]. assert (Hlog : wlog s' = wlog s ++ l2 ++ new) by (rewrite Hl', Hl2, Hl1; by rewrite app_assoc). split; [exact Hlog|].
  assert (Hall : Forall (fun e => concerns e = Some k') (l2 ++ new)) by (by apply Forall_app).
  exists (if ww_status y2 =? 0 then 500 else ww_status y2), (itoa (ww_status y2)). split.
  { pose proof (w_texec U fuel (TServe inner (Some k) isHEAD) s Hwi) as [Hwi' _]. rewrite HT in Hwi'. cbn [fst] in Hwi'.
    destruct Hwi' as [Hok _]. destruct (Hok k' z Hz) as [_ Hnx (pre & post & Hp & Hpre & Hpost) _ _ _]. change (v_log (world s')) with (wlog s') in *.
    rewrite Hlog, Hsent in Hp, Hnx. destruct (of_one k' _ Hall) as [Hone _]. rewrite <- Hone, Hp.
    unfold statuses_in. rewrite omap_app. fold (statuses_in pre) (statuses_in post). rewrite (statuses_push pre Hpre). cbn.
    destruct post as [|e post]; [exfalso; rewrite Hzs in Hpost; destruct (ww_status y2 =? 0) eqn:E0; lia|]. destruct e; try done. destruct Hpost as (Hs & _ & Hf).
    cbn. rewrite <- Hs, Hzs. f_equal; [|by apply statuses_none].
    rewrite Hp in Hnx. apply Forall_app in Hnx as [_ Hnx]. apply Forall_cons in Hnx as [Hu _]. f_equal. congruence. }
  split; [unfold counts; by destruct (ended x)|]. split.
  { unfold labelled. cbn. destruct (ww_status y2 =? 0) eqn:E0; [right|by left]. assert (ww_status y2 = 0) as -> by lia. done. }
  split; [|unfold counts; destruct (ended x); cbn; split; done || lia].
  destruct Hwi2 as [Hok2 _]. destruct (Hok2 k' y2 Hk2) as [_ _ _ Hb _ _]. change (v_log (world s2)) with (wlog s2) in Hb. rewrite Hl2, Hl1, Hsent in Hb.
  destruct (of_one k' l2 Hc2) as [_ Ht2]. rewrite Ht2 in Hb.
  assert (Hnew : total_accepted new = 0) by (unfold new; by destruct (_ =? _)). rewrite total_app, Hnew, Z.add_0_r, <- Hb.
  unfold counts. by destruct (ended x).
Qed.

(** ** All of them *)
Definition books (us : list uid) (m : list metric) (l : list uev) : Prop :=
  (statuses_in l).*1 = us /\ Forall2 labelled (requests_in m) (statuses_in l) /\ (total_accepted l <= max_i64 -> zsum (sent_in m) = total_accepted l) /\
  panics_in m = length (onpanics_in m) /\ (panics_in m <= length us)%nat.
Lemma books_nil : books [] [] [].
Proof. split; [done|]. split; [constructor|]. done. Qed.
Lemma books_cons u us m m' l l' : booked u m l -> books us m' l' -> books (u :: us) (m ++ m') (l ++ l').
Proof.
  intros (st & lab & A1 & A2 & A3 & A4 & A5 & A6) (B1 & B2 & B3 & B4 & B5). unfold books, statuses_in, requests_in, panics_in, onpanics_in, sent_in in *.
  rewrite !omap_app, !app_length. rewrite A1, A2, A4. cbn [app]. split; [cbn; by rewrite B1|]. split; [by constructor|]. split.
  { rewrite total_app. intros Hle. pose proof (total_pos l). pose proof (total_pos l'). cbn. fold zsum. rewrite wrap64_id by (unfold min_i64, max_i64 in *; lia). unfold zsum in *. rewrite B3 by lia. done. }
  cbn [length]. split; lia.
Qed.
Lemma history_books n cs : forall s s' os, Forall (server n) cs -> winv U (world s) -> v_objs (world s) !! 0%nat = Some WDiscard ->
  (forall k, (1 <= k <= n)%nat -> v_objs (world s) !! k = Some (WRaw (k - 1)%nat)) -> thistory U fuel s cs = (s', os) -> OSpin ∉ os ->
  exists m l, s_met s' = s_met s ++ m /\ wlog s' = wlog s ++ l /\ books (clients_of cs) m l.
Proof.
  induction cs as [|c cs IH]; intros s s' os Hsv Hwi H0 Hraw H Hns; cbn [thistory] in H.
  { injection H as <- <-. exists [], []. rewrite !app_nil_r. split; [done|]. split; [done|]. apply books_nil. }
  apply Forall_cons in Hsv as [Hc Hcs]. destruct (texec U fuel c s) as [s1 o] eqn:Hex.
  pose proof (w_texec U fuel c s Hwi) as [Hwi1 (_ & _ & Hkeep & _)]. rewrite Hex in Hwi1, Hkeep. cbn [fst] in Hwi1, Hkeep.
  assert (Hns0 : o <> OSpin) by (intros ->; injection H as <- <-; apply Hns; by left).
  assert (Hrest : exists os1, thistory U fuel s1 cs = (s', os1) /\ OSpin ∉ os1).
  { destruct (thistory U fuel s1 cs) as [s2 os1]. exists os1. assert (Hi : (s2, o :: os1) = (s', os)) by (by destruct o). injection Hi as <- <-. split; [done|]. intros Hin. apply Hns. by right. }
  destruct Hrest as (os1 & Hh & Hns1).
  destruct (IH s1 s' os1 Hcs Hwi1) as (m & l & Hm & Hl & Hb); [by apply (Hkeep (0%nat : wid))|intros k Hk; by apply (Hkeep k _ (Hraw k Hk))|done|done|].
  destruct c as [c|inner [k|] isHEAD]; cbn in Hc; [| |done].
  - exists m, l. cbn [texec] in Hex. pose proof (st_rdo c Hc s) as [_ Hlog]. rewrite Hex in Hlog. cbn [fst] in Hlog.
    pose proof (n_rdo U fuel c s) as Hmet. rewrite Hex in Hmet. cbn [fst] in Hmet. unfold wlog in *. rewrite Hm, Hl, Hlog. split; [f_equal; exact Hmet|]. split; [done|]. exact Hb.
  - destruct Hc as [Hk Ho]. destruct (request_books s k (k - 1)%nat inner isHEAD s1 o Hwi H0 (Hraw k Hk) Ho Hex Hns0) as (m1 & l1 & Hm1 & Hl1 & Hb1).
    exists (m1 ++ m), (l1 ++ l). rewrite Hm, Hm1, Hl, Hl1, !app_assoc. split; [done|]. split; [done|]. by apply books_cons.
Qed.
Theorem program_books : forall v n maps arrs cs s os,
  Forall (server n) cs -> thistory U fuel (tinitial v n maps arrs) cs = (s, os) -> OSpin ∉ os ->
  (statuses_in (wlog s)).*1 = clients_of cs /\ Forall2 labelled (requests_in (s_met s)) (statuses_in (wlog s)) /\
  (total_accepted (wlog s) <= max_i64 -> zsum (sent_in (s_met s)) = total_accepted (wlog s)) /\
  panics_in (s_met s) = length (onpanics_in (s_met s)) /\ (panics_in (s_met s) <= length (clients_of cs))%nat.
Proof.
  intros v n maps arrs cs s os Hsv H Hns.
  destruct (history_books n cs (tinitial v n maps arrs) s os Hsv (winv_initial U v n maps arrs) eq_refl) as (m & l & -> & -> & Hb); [|done..|exact Hb].
  intros k Hk. cbn. destruct k as [|k]; [lia|].
  change ((WRaw <$> seq 0 n) !! k = Some (WRaw (S k - 1)%nat)). rewrite list_lookup_fmap, lookup_seq_lt by lia. cbn. do 2 f_equal. lia.
Qed.
Theorem any_request_books : forall s k u inner isHEAD s' o,
  treaches U fuel s -> target s k = Some (None, u) -> each off_writers inner -> texec U fuel (TServe inner (Some k) isHEAD) s = (s', o) -> o <> OSpin ->
  exists m l st label, s_met s' = s_met s ++ m /\ wlog s' = wlog s ++ l /\
    statuses_in l = [(u, st)] /\ requests_in m = [label] /\ labelled label (u, st) /\ sent_in m = [wrap64 (total_accepted l)] /\
    panics_in m = length (onpanics_in m) /\ (panics_in m <= 1)%nat.
Proof.
  intros s k u inner isHEAD s' o Hre Ht Ho HT Hns. pose proof (treaches_winv U fuel s Hre) as Hwi.
  assert (H0 : v_objs (world s) !! (0%nat : wid) = Some WDiscard).
  { destruct Hre as (v & n & maps & arrs & cs & os & _ & H). pose proof (w_history U fuel (tinitial v n maps arrs) cs) as Hw. rewrite H in Hw.
    destruct (Hw (winv_initial U v n maps arrs)) as (_ & _ & _ & Hkeep & _). by apply (Hkeep (0%nat : wid) WDiscard). }
  assert (Hk : v_objs (world s) !! (k : wid) = Some (WRaw u)).
  { unfold target in Ht. destruct (v_objs (world s) !! k) as [[]|] eqn:E; try discriminate. by injection Ht as ->. }
  destruct (request_books s k u inner isHEAD s' o Hwi H0 Hk Ho HT Hns) as (m & l & Hm & Hl & st & lab & Hb). by exists m, l, st, lab.
Qed.
End Books.
