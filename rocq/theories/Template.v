(** * A Response used as a template (proofs) *)
From stdpp Require Import gmap.
From Coq Require Import ZifyBool.
From Verif Require Import RespFacts Frame PanicProofs HeapRun TemplateSpec CopyMain DeliverMain Reply SafeSpec.
From Verif Require Import ReplySpec.

(** ** Copy leaves the Body and the world alone *)
Local Opaque buffered_fetch buffered_advance.
Lemma wb_copy fuel o i : writesB (fun _ => False) (method fuel o i Copy).
Proof.
  destruct o; cbn [method]; unfold rbody; apply writesB_bind; try (intros [[] ?]; cbn; done).
  all: try exact I.
  all: unfold empty_Copy, bytes_Copy, seeker_Copy, readerAt_Copy, buffered_Copy, seeker_ref, readerAt_ref, buffered_ref, closed_Copy.
  all: wb.
Qed.

(** Programs that call neither a Reader nor a Writer. *)
Fixpoint quiet {A} (m : prog A) : Prop :=
  match m with
  | Do a k => match a with CallRead _ _ | CallReadAt _ _ _ | CallSeek _ _ _ | CallClose _ | CallStat _ | CallWrite _ _ => False | _ => True end /\ forall x, quiet (k x)
  | _ => True
  end.
Lemma quiet_bind {A B} (m : prog A) (k : A -> prog B) : quiet m -> (forall a, quiet (k a)) -> quiet (bind m k).
Proof. induction m; cbn; intros H1 H2; auto. destruct H1; split; auto. Qed.
Lemma quiet_locked {A} l (m : prog A) : quiet m -> quiet (locked l m).
Proof. intros H. unfold locked. cbn. split; [done|]. intros _. induction m as [| | |X a k IH]; cbn in *; auto. destruct H; split; auto. Qed.
Lemma quiet_of_option {A} e (o : option A) : quiet (of_option e o).
Proof. destruct o; cbn; done. Qed.
Ltac qt :=
  repeat first
    [ progress intros
    | apply quiet_locked | apply quiet_bind | apply quiet_of_option
    | match goal with
      | |- quiet (match ?x with _ => _ end) => destruct x
      | |- quiet (perform _) => cbn; split; auto
      | |- quiet (Ret _) => exact I
      | |- quiet (Panic _) => exact I
      | |- quiet (_ _) => cbn; split; auto; intros []; cbn; auto
      | |- quiet (let _ := _ in _) => cbv zeta
      end ].
Lemma quiet_copy fuel o i : quiet (method fuel o i Copy).
Proof.
  destruct o; cbn [method]; unfold rbody; apply quiet_bind; try (intros [[] ?]; cbn; done).
  all: try exact I.
  all: unfold empty_Copy, bytes_Copy, seeker_Copy, readerAt_Copy, buffered_Copy, seeker_ref, readerAt_ref, buffered_ref, closed_Copy.
  all: qt.
Qed.
Lemma quiet_run {W} (E : env W) (P : hazard W) {A} (m : prog A) : forall h h' o, quiet m -> xrun E P h m = (h', o) -> h_w h' = h_w h.
Proof.
  induction m as [a|e| |X a k IH]; intros h h' o Hq Hr; cbn in Hr; try (by injection Hr as <- <-).
  destruct Hq as [Ha Hk]. destruct (hits P h a) as [[w e]|] eqn:Hh; [by destruct a|].
  destruct (act_step E h a) as [[h1 x]|] eqn:Hs; [|by injection Hr as <- <-].
  rewrite (IH x h1 h' o (Hk x) Hr). clear -Ha Hs. destruct a; cbn in *; try done;
    repeat match type of Hs with context [match ?x with _ => _ end] => destruct x eqn:? end; try done; by injection Hs as <- <-.
Qed.

Section K.
Context {V : Type} (U : uenv V) (fuel : nat) (i : nat) (mo : option mid).
Implicit Types s : state V.
Hypothesis Hown : forall v u, mo <> Some (u_map U v u).

Lemma copy_exec (h h' : heap (wst V)) o : uexec U fuel h (Call i Copy) = (h', o) ->
  h_w h' = h_w h /\ forall ob, h_b h !! i = Some ob -> h_b h' !! i = Some ob.
Proof.
  unfold uexec, xexec, cmd_prog. destruct (h_b h !! i) as [b|] eqn:Hb; [|by intros [= <- <-]]. intros Hx. split.
  - eapply quiet_run; [apply quiet_copy|exact Hx].
  - intros ob [= ->]. destruct (xrun_writesB _ _ _ _ _ _ _ (wb_copy _ _ _) Hx) as (_ & _ & Hi). rewrite Hi; [done|tauto|by eapply lookup_lt_Some].
Qed.

(** ** What the steps of a request leave alone *)
Definition kept s s' : Prop :=
  (forall ob, h_b (s_h s) !! i = Some ob -> h_b (s_h s') !! i = Some ob) /\ s_arrs s' = s_arrs s /\
  (forall m, mo = Some m -> s_maps s' !! m = s_maps s !! m) /\ s_rps s `prefix_of` s_rps s'.
Global Instance kept_refl : Reflexive kept. Proof. intros s. repeat split; auto. Qed.
Global Instance kept_trans : Transitive kept.
Proof. intros s1 s2 s3 (A1 & A2 & A3 & A4) (B1 & B2 & B3 & B4). split; [auto|]. split; [congruence|]. split; [|by etrans]. intros m Hm. rewrite B3 by done. by apply A3. Qed.
Notation kok m := (pres kept m).

Lemma k_world s w : kept s (put_h s (heap_w (s_h s) w)).
Proof. repeat split; auto. Qed.
Lemma k_writer {A} (m : wm A) : kok (on_writer m).
Proof. intros s. unfold on_writer. destruct (m _). apply k_world. Qed.
Lemma k_outside {A} (m : V -> V * (A + panic)) : kok (outside m).
Proof. intros s. unfold outside. destruct (m _). apply k_world. Qed.
Lemma k_cmd c : (forall f, c <> Call i f) -> kok (body_cmd U fuel c).
Proof.
  intros Hc s. unfold body_cmd. destruct (uexec U fuel (s_h s) c) as [h o] eqn:Hx. apply xexec_frame in Hx as (_ & _ & Hi). repeat split; eauto.
Qed.
Lemma k_copy : kok (body_cmd U fuel (Call i Copy)).
Proof. intros s. unfold body_cmd. destruct (uexec U fuel (s_h s) _) as [h o] eqn:Hx. apply copy_exec in Hx as (_ & Hi). repeat split; auto. Qed.
Lemma k_met x : kok (met x). Proof. intros s. repeat split; auto. Qed.
Lemma k_make_rp x : kok (make_rp x). Proof. intros s. repeat split; auto. cbn. by exists [x]. Qed.
Lemma k_log_u e : kok (log_u e). Proof. intros s. apply k_world. Qed.
Lemma k_lookup_wrap k : kok (lookup_wrap k). Proof. unfold lookup_wrap. pres_go. Qed.
Lemma k_NewWriter k b : kok (NewWriter U k b).
Proof. intros s. unfold NewWriter. destruct k as [k|]; [|done]. destruct (v_objs _ !! k) as [[| |]|]; try done. Qed.
Local Hint Resolve k_writer k_outside k_met k_make_rp k_log_u k_lookup_wrap k_NewWriter : pres.

Section Other.
Context (b : option nat).
Hypothesis Hb : b <> Some i.
Lemma k_call f : kok (body_call U fuel b f).
Proof.
  unfold body_call. destruct b as [j|]; [|by intros s]. intros s. unfold ybind, of_opt, yret. cbn. apply k_cmd. intros g [= Hg _]. by subst.
Qed.
Local Hint Resolve k_call : pres.
Lemma k_readfrom_loop n u last : kok (readfrom_loop U fuel n u b last).
Proof.
  revert last. induction n as [|n IH]; intros last; cbn [readfrom_loop]; [pres_go|]. intros s. cbv zeta.
  destruct (u_readfrom _ _ _ _) as [v [f|ans]]; cbn; [|apply k_world]. set (s1 := put_h s _). assert (Hs1 : kept s s1) by apply k_world. etrans; [exact Hs1|].
  pose proof (k_call f s1) as H. destruct (body_call U fuel b f s1) as [s2 [r|e|]]; cbn in H; [etrans; [exact H|apply IH]..|done].
Qed.
Local Hint Resolve k_readfrom_loop : pres.
Lemma k_raw_ReadFrom by_ u : kok (raw_ReadFrom U fuel by_ u b).
Proof. unfold raw_ReadFrom. pres_go. Qed.
Lemma k_discard_loop n buf t : kok (discard_loop U fuel n b buf t).
Proof. revert buf t. induction n as [|n IH]; intros buf t; cbn [discard_loop]; cbv zeta; pres_go; apply IH. Qed.
Lemma k_copy_loop n k buf t : kok (copy_loop U fuel n k b buf t).
Proof.
  revert buf t. induction n as [|n IH]; intros buf t; cbn [copy_loop]; cbv zeta; [pres_go|].
  assert (Hs : forall (p : bytes) z, kok (fun s : state V => match slice p 0 z with Some p => (s, ORet p) | None => (s, OPanic PRange) end)).
  { intros p z s. destruct (slice _ _ _); reflexivity. }
  pres_go; apply IH.
Qed.
Lemma k_write_to k : kok (write_to U fuel k b).
Proof. unfold write_to. pres_go. Qed.
Local Hint Resolve k_raw_ReadFrom k_discard_loop k_copy_loop k_write_to : pres.
Lemma k_copy_discard : kok (copy_discard U fuel b).
Proof. unfold copy_discard. pres_go. Qed.
Local Hint Resolve k_copy_discard : pres.
Lemma k_wrap_ReadFrom k : kok (wrap_ReadFrom U fuel k b).
Proof. unfold wrap_ReadFrom. pres_go. Qed.
Local Hint Resolve k_wrap_ReadFrom : pres.
Lemma k_any_ReadFrom k : kok (any_ReadFrom U fuel k b).
Proof. unfold any_ReadFrom. pres_go. Qed.
Local Hint Resolve k_any_ReadFrom : pres.
Lemma k_io_Copy k : kok (io_Copy U fuel k b).
Proof. unfold io_Copy. pres_go. Qed.
End Other.
Local Hint Resolve k_any_ReadFrom k_io_Copy k_call : pres.
Lemma k_any_WriteHeader k st : kok (any_WriteHeader U k st).
Proof. unfold any_WriteHeader. pres_go. Qed.
Lemma k_any_Push k url : kok (any_Push U k url).
Proof. unfold any_Push. pres_go. Qed.
Local Hint Resolve k_any_WriteHeader k_any_Push : pres.
Lemma k_push_all k l : kok (push_all U k l).
Proof. induction l; cbn [push_all]; pres_go. Qed.
Lemma k_copy_to m x : mo <> Some m -> kok (copy_to m x).
Proof.
  intros Hm. unfold copy_to. cbv zeta. destruct (bool_decide _); [pres_go|]. apply pres_bind; [apply _|pres_go|]. intros dst s. unfold put_map.
  repeat split; auto. intros m' Hm'. cbn. apply list_lookup_insert_ne. congruence.
Qed.
Local Hint Resolve k_push_all : pres.
Lemma k_rp_Serve x k : rp_body x <> Some i -> kok (rp_Serve U fuel x k).
Proof.
  intros Hx. unfold rp_Serve. apply pres_bind; [apply _|pres_go|]. intros o. apply pres_bind; [apply _|pres_go|]. intros [e|]; [pres_go|].
  intros s. unfold ybind at 1. unfold any_Header. destruct (v_objs _ !! k) as [[|u|y]|]; try done.
  all: match goal with |- kept ?s0 (fst (?m ?s0)) => enough (Hm : kok m) by apply Hm end.
  all: apply pres_bind; [apply _|pres_go|]; intros hdrs; apply pres_bind; [apply _|apply k_copy_to, Hown|]; intros _; pres_go.
Qed.
Lemma k_w_do k f : f <> WReadFrom i -> kok (w_do U fuel k f).
Proof.
  intros Hf. unfold w_do. apply pres_bind; [apply _|pres_go|]. intros o. destruct f; try (by pres_go).
  assert (Some b <> Some i) by congruence. pres_go.
Qed.
Lemma k_mets l : kok (mets l).
Proof. induction l; cbn [mets]; pres_go. Qed.
Local Hint Resolve k_mets : pres.
Lemma k_defer ww pv : kok (adaptor_defer U ww pv).
Proof. unfold adaptor_defer. cbv zeta. pres_go. Qed.
End K.

Section Main.
Context {V : Type} (U : uenv V) (fuel : nat).
Implicit Types s : state V.

Lemma hist_app s cs cs' : forall s1 os, thistory U fuel s cs = (s1, os) -> OSpin ∉ os -> thistory U fuel s (cs ++ cs') = ((thistory U fuel s1 cs').1, os ++ (thistory U fuel s1 cs').2).
Proof.
  revert s. induction cs as [|c cs IH]; intros s s1 os H Hn; cbn in H |- *; [injection H as <- <-; by destruct (thistory _ _ _ _)|].
  destruct (texec U fuel c s) as [s2 o]. destruct o as [y|e|].
  - destruct (thistory U fuel s2 cs) as [s3 os3] eqn:H3. injection H as <- <-. rewrite (IH _ _ _ H3); [done|set_solver].
  - destruct (thistory U fuel s2 cs) as [s3 os3] eqn:H3. injection H as <- <-. rewrite (IH _ _ _ H3); [done|set_solver].
  - injection H as <- <-. set_solver.
Qed.
Lemma hist_snoc s cs c : forall s1 os s2 o, thistory U fuel s cs = (s1, os) -> OSpin ∉ os -> texec U fuel c s1 = (s2, o) -> thistory U fuel s (cs ++ [c]) = (s2, os ++ [o]).
Proof. intros s1 os s2 o H Hn Hc. rewrite (hist_app s cs [c] s1 os H Hn). cbn. rewrite Hc. by destruct o. Qed.
Lemma hist_split s cs c : forall s2 os, thistory U fuel s (cs ++ [c]) = (s2, os) -> OSpin ∉ os ->
  exists s1 os1 o, thistory U fuel s cs = (s1, os1) /\ OSpin ∉ os1 /\ texec U fuel c s1 = (s2, o).
Proof.
  revert s. induction cs as [|c' cs IH]; intros s s2 os H Hn; cbn in H |- *.
  - destruct (texec U fuel c s) as [s1 o] eqn:Hx. exists s, [], o. split; [done|]. split; [set_solver|]. rewrite Hx. by destruct o; injection H as <- _.
  - destruct (texec U fuel c' s) as [s1 [y|e|]].
    + destruct (thistory U fuel s1 (cs ++ [c])) as [s3 os3] eqn:H3. injection H as <- <-. destruct (IH _ _ _ H3 ltac:(set_solver)) as (s4 & os4 & o & H4 & H5 & H6).
      rewrite H4. exists s4, (ORet y :: os4), o. split; [done|]. split; [set_solver|done].
    + destruct (thistory U fuel s1 (cs ++ [c])) as [s3 os3] eqn:H3. injection H as <- <-. destruct (IH _ _ _ H3 ltac:(set_solver)) as (s4 & os4 & o & H4 & H5 & H6).
      rewrite H4. exists s4, (OPanic e :: os4), o. split; [done|]. split; [set_solver|done].
    + injection H as <- <-. set_solver.
Qed.

Hypothesis Hgu : go_uenv U.
Notation hR := (HeapRun.hR U fuel (fun _ _ => True) go_cmd).
Lemma f_back s s' : hR s s' -> feasible (s_h s') -> feasible (s_h s).
Proof. apply hrun_feasible. Qed.
Lemma f_serve x k s : hR s (rp_Serve U fuel x k s).1.
Proof. destruct Hgu as (_ & Hrf & Hs). by apply h_rp_Serve. Qed.
Lemma f_defer ww pv s : hR s (adaptor_defer U ww pv s).1.
Proof. destruct Hgu as (_ & Hrf & Hs). by apply h_defer. Qed.
Lemma f_texec c s : each_in (go_rcmd U) c -> hR s (texec U fuel c s).1.
Proof.
  destruct Hgu as (_ & Hrf & Hs). intros Hc. apply h_texec; try done. eapply each_in_mono; [|exact Hc]. intros c' Hc'. split; [done|]. by intros c'' ->.
Qed.

Context (busy : Prop) (P : rcmd -> Prop) (s0 : state V) (r i : nat) (R : bytes) (ob : bobj) (x : response).
Hypothesis HP : forall c, match c with RB _ => True | _ => P c end.
Hypothesis Hr : s_rps s0 !! r = Some x.
Hypothesis Hx : rp_body x = Some i.
Hypothesis Hob : h_b (s_h s0) !! i = Some ob.
Hypothesis Hown : forall v u, rp_hdrs x <> Some (u_map U v u).
Hypothesis Htw : forall cs s os, Forall (each_in (go_rcmd U)) cs -> Forall (each_in P) cs -> thistory U fuel s0 cs = (s, os) -> OSpin ∉ os ->
  feasible (s_h s) -> h_b (s_h s) !! i = Some ob -> twins U fuel busy s i R.
Notation kept := (kept i (rp_hdrs x)).

Lemma kept_facts s : kept s0 s -> h_b (s_h s) !! i = Some ob /\ s_rps s !! r = Some x /\ hview s (rp_hdrs x) = hview s0 (rp_hdrs x).
Proof.
  intros (K1 & K2 & K3 & K4). split; [by apply K1|]. split; [by eapply prefix_lookup|]. unfold hview. destruct (rp_hdrs x) as [m|]; [|done]. unfold view. by rewrite K2, K3.
Qed.

(** One request, however it ends. *)
Lemma request_kept cs s os k isHEAD s' o :
  Forall (each_in (go_rcmd U)) cs -> Forall (each_in P) cs -> thistory U fuel s0 cs = (s, os) -> OSpin ∉ os -> kept s0 s ->
  texec U fuel (TServe (from_copy r) (Some k) isHEAD) s = (s', o) -> feasible (s_h s') -> kept s s' /\
  forall s1 ww, NewWriter U (Some k) isHEAD s = (s1, ORet ww) -> exists s2 r2 j,
    texec U fuel (TDo (RCopy r)) s1 = (s2, ORet (YNew (Some r2) None)) /\ s_rps s2 !! r2 = Some {| rp_code := rp_code x; rp_hdrs := rp_hdrs x; rp_body := Some j; rp_err := rp_err x |} /\
    delivers U fuel busy s2 j R /\ (forall m, view s2 m = view s1 m) /\ world s2 = world s1.
Proof.
  intros Hgo HPs Hh Hn Hk H Hf. cbn in H. unfold ybind in H.
  assert (Hs : (ServeHTTP U fuel (from_copy r) (Some k) isHEAD s).1 = s') by (destruct (ServeHTTP _ _ _ _ _ _) as [s4 [[]|e|]]; by injection H as <- _). clear H. revert Hs. unfold ServeHTTP.
  pose proof (k_NewWriter U i (rp_hdrs x) (Some k) isHEAD s) as Hk1.
  destruct (NewWriter U (Some k) isHEAD s) as [s1 [ww|e|]] eqn:HN; cbn in Hk1; [|intros <-; split; [done|by intros ? ?]..].
  cbn [from_copy run_handler].
  assert (Hh1 : thistory U fuel s0 (cs ++ [TDo (RNewWriter (Some k) isHEAD)]) = (s1, os ++ [ORet (YHandle (Some ww))])).
  { apply (hist_snoc _ _ _ _ _ _ _ Hh Hn). cbn. unfold ybind. by rewrite HN. }
  pose proof (kept_facts s1 ltac:(by etrans)) as (Hb1 & Hr1 & _).
  destruct (rdo U fuel (RCopy r) s1) as [s2 oc] eqn:Hc. intros Hs.
  assert (Hf2 : feasible (s_h s2)).
  { destruct oc as [y|e|].
    - destruct (run_handler _ _ _ s2) as [s3 x3] eqn:Hrun.
      assert (Hs3 : s3 = s2).
      { destruct y; cbn in Hrun; repeat (match type of Hrun with context [match ?z with _ => _ end] => destruct z end; cbn in Hrun); by injection Hrun as <- <-. }
      subst s3. clear Hrun.
      destruct x3 as [[z|e|]|[]].
      + pose proof (f_serve z ww s2) as Hq. destruct (rp_Serve U fuel z ww s2) as [s4 [[e|]|e|]]; cbn in Hq.
        * apply (f_back _ _ Hq). eapply f_back; [apply (f_defer ww (Some (PError e)))|]. by rewrite Hs.
        * apply (f_back _ _ Hq). eapply f_back; [apply (f_defer ww None)|]. by rewrite Hs.
        * apply (f_back _ _ Hq). eapply f_back; [apply (f_defer ww (Some e))|]. by rewrite Hs.
        * apply (f_back _ _ Hq). cbn in Hs. by rewrite Hs.
      + eapply f_back; [apply (f_defer ww (Some e))|]. by rewrite Hs.
      + cbn in Hs. by rewrite Hs.
      + eapply f_back; [apply (f_defer ww None)|]. by rewrite Hs.
    - cbn in Hs. eapply f_back; [apply (f_defer ww None)|]. by rewrite Hs.
    - cbn in Hs. by rewrite Hs. }
  assert (Hf1 : feasible (s_h s1)).
  { pose proof (f_texec (TDo (RCopy r)) s1 ltac:(done)) as Hq. cbn [texec] in Hq. rewrite Hc in Hq. by apply (f_back _ _ Hq). }
  pose proof (Htw (cs ++ [TDo (RNewWriter (Some k) isHEAD)]) s1 _ ltac:(apply Forall_app; split; [done|by repeat constructor])
    ltac:(apply Forall_app; split; [done|repeat constructor; apply (HP (RNewWriter _ _))]) Hh1 ltac:(set_solver) Hf1 Hb1) as Ht.
  destruct (Ht r x s2 oc Hr1 Hx Hc Hf2) as (j & Ho & Hrps & Hji & Hv & _ & Hd & _). subst oc.
  assert (Hlast : s_rps s2 !! length (s_rps s1) = Some {| rp_code := rp_code x; rp_hdrs := rp_hdrs x; rp_body := Some j; rp_err := rp_err x |}).
  { rewrite Hrps. by apply list_lookup_middle. }
  assert (Hk2 : kept s1 s2 /\ world s2 = world s1).
  { cbn in Hc. unfold ybind at 1, the_rp in Hc. rewrite Hr1 in Hc. unfold rp_Copy, copyBody in Hc. rewrite Hx in Hc.
    pose proof (k_copy U fuel i (rp_hdrs x) s1) as Hkc. unfold ybind, body_cmd in Hc, Hkc. destruct (uexec U fuel (s_h s1) (Call i Copy)) as [h' oc] eqn:Hex.
    apply copy_exec in Hex as [Hw _]. cbn in Hkc. destruct oc as [y|e|]; [|done|done]. destruct y as [| | | | |j' err| | |]; try done. destruct err as [e|]; [done|].
    cbn in Hc. injection Hc as <-. split; [|exact Hw]. etrans; [exact Hkc|]. exact (k_make_rp i (rp_hdrs x) _ (put_h s1 h')). }
  destruct Hk2 as [Hk2 Hw2]. split.
  - etrans; [exact Hk1|]. etrans; [exact Hk2|]. cbn in Hs. rewrite Hlast in Hs. cbn in Hs.
    match type of Hs with context [rp_Serve U fuel ?z ww s2] => pose proof (k_rp_Serve U fuel i (rp_hdrs x) Hown z ww ltac:(cbn; congruence) s2) as Hk3; destruct (rp_Serve U fuel z ww s2) as [s4 [[e|]|e|]] end.
    1-3: etrans; [exact Hk3|]; rewrite <- Hs; apply k_defer.
    cbn in Hs. by subst s4.
  - intros s1' ww' [= <- <-]. exists s2, (length (s_rps s1)), j. done.
Qed.

Lemma steps_kept cs : forall s os, Forall (bystander r i) cs -> Forall (each_in (go_rcmd U)) cs -> Forall (each_in P) cs -> thistory U fuel s0 cs = (s, os) -> OSpin ∉ os ->
  feasible (s_h s) -> kept s0 s.
Proof.
  induction cs as [|c cs IH] using rev_ind; intros s os Hby Hgo HPs Hh Hn Hf; [by injection Hh as <- _|].
  apply Forall_app in Hby as [Hby Hc], Hgo as [Hgo Hgc], HPs as [HPs _]. rewrite Forall_singleton in Hc. rewrite Forall_singleton in Hgc.
  destruct (hist_split _ _ _ _ _ Hh Hn) as (s1 & os1 & o & Hh1 & Hn1 & Hx1).
  assert (Hf1 : feasible (s_h s1)) by (pose proof (f_texec c s1 Hgc) as Hq; rewrite Hx1 in Hq; by apply (f_back _ _ Hq)).
  pose proof (IH s1 os1 Hby Hgo HPs Hh1 Hn1 Hf1) as Hk. etrans; [exact Hk|]. inversion Hc as [k isHEAD|c' Hc'| |k isHEAD|k f Hw]; subst c.
  - by apply (request_kept cs s1 os1 k isHEAD s o).
  - pose proof (k_cmd U fuel i (rp_hdrs x) c' Hc' s1) as Hq. cbn in Hx1. unfold ybind in Hx1. destruct (body_cmd U fuel c' s1) as [s2 [y|e|]]; by injection Hx1 as <- _.
  - pose proof (k_copy U fuel i (rp_hdrs x) s1) as Hq. cbn in Hx1. unfold ybind in Hx1. destruct (body_cmd U fuel _ s1) as [s2 [y|e|]]; by injection Hx1 as <- _.
  - pose proof (k_NewWriter U i (rp_hdrs x) k isHEAD s1) as Hq. cbn in Hx1. unfold ybind in Hx1. destruct (NewWriter U k isHEAD s1) as [s2 [y|e|]]; by injection Hx1 as <- _.
  - pose proof (k_w_do U fuel i (rp_hdrs x) k f Hw s1) as Hq. cbn in Hx1. by rewrite Hx1 in Hq.
Qed.

Lemma template_holds : reached U fuel s0 -> template U fuel busy P s0 r i R.
Proof.
  intros Hrc y X cs s3 os k u h got isHEAD Y s' o Hr' Hx' HX Hown' Hby Hgo HPs Hh Hn Ht Hac Hmap Hcl HY H Hf k'.
  rewrite Hr in Hr'. injection Hr' as <-. clear Hx' Hown'.
  assert (Hf3 : feasible (s_h s3)).
  { pose proof (f_texec (TServe (from_copy r) (Some k) isHEAD) s3) as Hq. rewrite H in Hq. apply (f_back s3 s'); [|done]. apply Hq. cbn. split; [done|].
    intros [y|e|]; cbn; try done. destruct y; cbn; try done. repeat (match goal with |- context [match ?z with _ => _ end] => destruct z end; cbn; try done). }
  pose proof (steps_kept cs s3 os Hby Hgo HPs Hh Hn Hf3) as Hk. destruct (kept_facts s3 Hk) as (Hb3 & Hr3 & HX3). rewrite HX in HX3.
  destruct (request_kept cs s3 os k isHEAD s' o Hgo HPs Hh Hn Hk H Hf) as [_ Hreq].
  assert (Hrc3 : treaches U fuel s3).
  { destruct Hrc as (v & n & maps & arrs & cs0 & os0 & Hm & _ & Hh0 & Hsp). exists v, n, maps, arrs, (cs0 ++ cs), (os0 ++ os). split; [done|]. by rewrite (hist_app _ _ cs _ _ Hh0 Hsp), Hh. }
  unfold target in Ht. destruct (v_objs (world s3) !! k) as [[|u'|]|] eqn:Hk3; try done. injection Ht as ->.
  destruct (NewWriter U (Some k) isHEAD s3) as [s1 ow] eqn:HN. pose proof HN as HN'. unfold NewWriter in HN'. fold (world s3) in HN'. rewrite Hk3 in HN'. cbv zeta in HN'.
  injection HN' as Hs1 <-. destruct (Hreq s1 _ eq_refl) as (s2 & r2 & j & Hc & Hr2 & Hd & Hv & Hw).
  assert (Hgot : got (v_v (world s3)) = got (v_v (world s2))) by (rewrite Hw, <- Hs1; done). rewrite Hgot.
  apply (Reply.request U fuel s3 k u h got (from_copy r) isHEAD s1 k' s2 r2 {| rp_code := rp_code x; rp_hdrs := rp_hdrs x; rp_body := Some j; rp_err := rp_err x |} j R busy X Y s' o Hrc3); try done.
  - unfold target. by rewrite Hk3.
  - cbn. unfold ybind. by rewrite HN.
  - eapply rt_do; [exact Hc|done|]. cbn. constructor.
  - assert (Hk' : v_objs (h_w (s_h s2)) !! k' = v_objs (world s1) !! k') by (by rewrite <- Hw). unfold reports. cbn. unfold w_do, ybind, lookup_w. rewrite Hk', <- Hs1. cbn. unfold k'. by rewrite list_lookup_middle.
  - cbn. rewrite <- HX3. rewrite <- Hs1 in Hv. unfold hview. destruct (rp_hdrs x) as [m|]; [|done]. by rewrite Hv.
  - rewrite Hv, <- Hs1. done.
Qed.
End Main.

(** ** The kinds of Bodies *)
Section Kinds.
Context {V : Type} (U : uenv V) (fuel : nat).
Implicit Types s : state V.
(** In memory. *)
Theorem memory_template s r x i b :
  go_uenv U -> reached U fuel s -> s_rps s !! r = Some x -> rp_body x = Some i -> (forall v u, rp_hdrs x <> Some (u_map U v u)) ->
  h_b (s_h s) !! i = Some (BBytes b) -> by_closed b = false ->
  template U fuel False (fun _ => True) s r i (left_in b).
Proof.
  intros Hgu Hrc Hr Hx Hown Hb Hcl. apply (template_holds U fuel Hgu False _ s r i _ (BBytes b) x); try done; [by intros []|].
  intros cs s' os Hgo _ Hh Hn Hf Hb'. destruct Hrc as (v & n & maps & arrs & cs0 & os0 & Hm & Hgo0 & Hh0 & Hsp).
  unfold left_in. rewrite Hcl. apply (DeliverMain.memory U fuel (twins U fuel) s' i b (enough_twins U fuel)); try done.
  split; [done|]. exists v, n, maps, arrs, (cs0 ++ cs), (os0 ++ os). split; [by apply Forall_app|]. split; [|done]. by rewrite (hist_app U fuel _ _ cs _ _ Hh0 Hsp), Hh.
Qed.

(** Made of a Reader. *)
Lemma wrapped_longer rd v s1 i cs s2 os cs' s3 os' :
  wrapped_in U fuel rd v s1 i cs s2 os -> OSpin ∉ os -> Forall (each_in (go_rcmd U)) cs' -> Forall (each_in (spares rd)) cs' ->
  thistory U fuel s2 cs' = (s3, os') -> feasible (s_h s3) -> wrapped_in U fuel rd v s1 i (cs ++ cs') s3 (os ++ os').
Proof.
  intros (Hgu & n & maps & arrs & cs0 & os0 & s0 & new & H1 & H2 & H3 & H4 & H5 & H6 & H7 & H8) Hn Hgo Hsp Hh Hf.
  split; [done|]. exists n, maps, arrs, cs0, os0, s0, new. rewrite !app_assoc, !Forall_app. repeat split; try done; try (by apply Forall_app in H1 as []; done); try (by apply Forall_app in H2 as []; done).
  - by rewrite (hist_app U fuel _ _ cs' _ _ H7 Hn), Hh.
  - apply Hf.
  - apply Hf.
Qed.
Section Made.
Context (rd : rid) (busy : Prop) (R : bytes) (v : V) (s1 s : state V) (i : nat) (cs : list tcmd) (os : list (out reply)) (r : nat) (x : response).
Hypothesis Hw : wrapped_in U fuel rd v s1 i cs s os.
Hypothesis Hn : OSpin ∉ os.
Context (D : Z) (Hann : announced U fuel s1 i D).
Hypothesis Hb : h_b (s_h s) !! i = h_b (s_h s1) !! i.
Hypothesis Hrc : reached U fuel s.
Hypothesis Hr : s_rps s !! r = Some x.
Hypothesis Hx : rp_body x = Some i.
Hypothesis Hown : forall v u, rp_hdrs x <> Some (u_map U v u).
Hypothesis Hfresh : forall cs' s' os', wrapped_in U fuel rd v s1 i cs' s' os' -> h_b (s_h s') !! i = h_b (s_h s1) !! i -> twins U fuel busy s' i R.
Theorem made_template : template U fuel busy (spares rd) s r i R.
Proof.
  assert (Hob : exists ob, h_b (s_h s) !! i = Some ob).
  { rewrite Hb. apply announced_heap in Hann. unfold exec, cmd_prog in Hann. destruct (h_b (s_h s1) !! i) as [ob|]; [by exists ob|done]. }
  destruct Hob as [ob Hob]. apply (template_holds U fuel (proj1 Hw) busy (spares rd) s r i R ob x); try done; [by intros []|].
  intros cs' s' os' Hgo Hsp Hh Hn' Hf Hb'. apply (Hfresh (cs ++ cs') s' (os ++ os')); [|congruence]. by eapply wrapped_longer.
Qed.
End Made.
Theorem at_template (rd : rid) (live : V -> Prop) (d : bytes) (early : bool) :
  serves_at (u_env U) rd live d early -> cp_readerat (ev_caps (u_env U) rd) = true -> calm U (fun v v' => live v -> live v') ->
  forall v s1 i cs s os (D : Z) r x, live v -> wrapped_in U fuel rd v s1 i cs s os -> OSpin ∉ os -> announced U fuel s1 i D -> 0 <= D <= zlen d ->
  h_b (s_h s) !! i = h_b (s_h s1) !! i -> reached U fuel s -> s_rps s !! r = Some x -> rp_body x = Some i -> (forall v u, rp_hdrs x <> Some (u_map U v u)) ->
  template U fuel False (spares rd) s r i (take (Z.to_nat D) d).
Proof.
  intros Hs Hc Hcalm v s1 i cs s os D r x Hl Hw Hn Hann HD Hb Hrc Hr Hx Hown. apply (made_template rd False _ v s1 s i cs os r x Hw Hn D Hann Hb Hrc Hr Hx Hown).
  intros cs' s' os' Hw'. by apply (at_fresh U fuel (twins U fuel) (enough_twins U fuel) rd live d early Hs Hc Hcalm v s1 i cs' s' os' D).
Qed.
Theorem seek_template (rd : rid) (live : V -> Prop) (d : bytes) (early : bool) :
  serves_seek (u_env U) rd live d early -> cp_readerat (ev_caps (u_env U) rd) = false -> cp_seeker (ev_caps (u_env U) rd) = true ->
  calm U (fun v v' => live v -> live v') ->
  forall v s1 i cs s os (D : Z) r x, live v -> wrapped_in U fuel rd v s1 i cs s os -> OSpin ∉ os -> announced U fuel s1 i D -> 0 <= D <= zlen d ->
  h_b (s_h s) !! i = h_b (s_h s1) !! i -> reached U fuel s -> s_rps s !! r = Some x -> rp_body x = Some i -> (forall v u, rp_hdrs x <> Some (u_map U v u)) ->
  template U fuel False (spares rd) s r i (take (Z.to_nat D) d).
Proof.
  intros Hs Hc Hc' Hcalm v s1 i cs s os D r x Hl Hw Hn Hann HD Hb Hrc Hr Hx Hown. apply (made_template rd False _ v s1 s i cs os r x Hw Hn D Hann Hb Hrc Hr Hx Hown).
  intros cs' s' os' Hw'. by apply (seek_fresh U fuel (twins U fuel) (enough_twins U fuel) rd live d early Hs Hc Hc' Hcalm v s1 i cs' s' os' D).
Qed.
Theorem stream_template (rd : rid) (gp : V -> nat) (d : bytes) :
  streams (u_env U) rd gp d EOF -> calm U (fun v v' => gp v' = gp v) ->
  forall v s1 i cs s os (D : Z) r x, gp v = 0%nat -> wrapped_in U fuel rd v s1 i cs s os -> OSpin ∉ os -> announced U fuel s1 i D ->
  (cp_readerat (ev_caps (u_env U) rd) || cp_seeker (ev_caps (u_env U) rd)) && (0 <=? D) = false ->
  h_b (s_h s) !! i = h_b (s_h s1) !! i -> reached U fuel s -> s_rps s !! r = Some x -> rp_body x = Some i -> (forall v u, rp_hdrs x <> Some (u_map U v u)) ->
  template U fuel True (spares rd) s r i (cut D d).
Proof.
  intros Hs Hcalm v s1 i cs s os D r x Hl Hw Hn Hann HD Hb Hrc Hr Hx Hown. apply (made_template rd True _ v s1 s i cs os r x Hw Hn D Hann Hb Hrc Hr Hx Hown).
  intros cs' s' os' Hw'. by apply (stream_fresh U fuel (twins U fuel) (enough_twins U fuel) rd gp d Hs Hcalm v s1 i cs' s' os' D).
Qed.
End Kinds.
