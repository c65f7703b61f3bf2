(** * Proofs of C04, C13, C14, C15 *)
From stdpp Require Import gmap.
From Coq Require Import ZifyBool.
From Verif Require Export Stream.

Lemma terminal_reads r D L X :
  polite r D (L ++ X) -> is_Some (terminal D L) -> Forall (fun ev => match ev with EvRead _ _ _ _ _ => False | _ => True end) X.
Proof.
  intros Hp [e He]. apply Forall_forall. intros ev Hin. apply elem_of_list_split in Hin as (X1 & X2 & ->).
  rewrite app_assoc in Hp. destruct (Hp (L ++ X1) ev X2 eq_refl) as [_ Hev]. destruct ev as [r' len n got err| | | | |]; try done.
  destruct Hev as (_ & H1 & H2 & H3). unfold terminal in He. rewrite first_error_app in H1.
  destruct (first_error L); [done|]. destruct (_ && _) eqn:Hx; [|done]. rewrite stream_app, zlen_app in H3.
  pose proof (zlen_nonneg (stream X1)). lia.
Qed.
Lemma no_reads X :
  Forall (fun ev => match ev with EvRead _ _ _ _ _ => False | _ => True end) X -> stream X = [] /\ first_error X = None.
Proof.
  induction 1 as [|ev X Hev HX [IH1 IH2]]; [done|]. unfold stream in *. cbn. rewrite IH1, IH2. by destruct ev.
Qed.
Lemma terminal_stays r D L X :
  polite r D (L ++ X) -> is_Some (terminal D L) -> stream (L ++ X) = stream L /\ terminal D (L ++ X) = terminal D L.
Proof.
  intros Hp Hs. destruct (no_reads X (terminal_reads _ _ _ _ Hp Hs)) as [H1 H2].
  assert (Heq : stream (L ++ X) = stream L) by by rewrite stream_app, H1, app_nil_r.
  split; [done|]. unfold terminal. rewrite first_error_app, H2, Heq. by destruct (first_error L).
Qed.

Lemma filled_mono (d x : bytes) pos k p : (pos + k <= length d)%nat -> filled (d ++ x) pos k p = filled d pos k p.
Proof.
  intros Hk. unfold filled. f_equal. rewrite drop_app_le by lia. rewrite take_app_le; [done|]. rewrite drop_length. lia.
Qed.

(** An answer right now is an answer for the final stream. *)
Lemma answer_final r D L X pos ended f x :
  polite r D (L ++ X) -> (pos <= length (stream L))%nat -> (ended = true -> is_Some (terminal D L) /\ pos = length (stream L)) ->
  stream_answer D (stream L) (terminal D L) r pos ended f x ->
  final_answer D (stream (L ++ X)) (terminal D (L ++ X)) r pos ended f x.
Proof.
  intros Hp Hpos Hend. destruct f; try done.
  - cbn. destruct (terminal D L) as [e|] eqn:He.
    + intros ->. left. destruct (terminal_stays r D L X Hp) as [-> ->]; [by rewrite He|]. by rewrite He.
    + intros ->. right. split; [|done]. destruct ended; [|done]. by destruct (Hend eq_refl) as [[? ?] _].
  - cbn [final_answer stream_answer]. intros (err & -> & Herr).
    destruct (ended || (length (stream L) <? pos + length p)%nat) eqn:Hx.
    + destruct Herr as [Hs ->]. destruct (terminal_stays r D L X Hp Hs) as [-> ->]. eexists. split; [done|].
      rewrite Hx. done.
    + subst err. assert (Hle : (pos + length p <= length (stream L))%nat) by (destruct ended; [done|]; cbn [orb] in Hx; lia).
      destruct ended; [done|]. rewrite stream_app, app_length. exists None.
      replace (Nat.min (length p) (length (stream L) + length (stream X) - pos)) with (Nat.min (length p) (length (stream L) - pos)) by lia.
      rewrite filled_mono by lia. split; [done|]. cbn [orb].
      replace (_ <? _)%nat with false by lia. done.
Qed.

(** Answers for a prefix of a longer stream. *)
Lemma answer_extend D d x e' r pos ended f y :
  (ended = true -> False) -> final_answer D d None r pos ended f y -> final_answer D (d ++ x) (Some e') r pos ended f y.
Proof.
  intros Hend. destruct f; try done.
  - cbn. intros [[? _]|[H1 H2]]; [done|]. by right.
  - cbn [final_answer stream_answer]. intros (err & -> & Herr). destruct ended; [by destruct Hend|]. cbn [orb] in *.
    destruct (length d <? pos + length p)%nat eqn:Hlt; [destruct Herr as [[? ?] ?]; congruence|]. subst err.
    exists None. rewrite app_length.
    replace (Nat.min (length p) (length d + length x - pos)) with (Nat.min (length p) (length d - pos)) by lia.
    rewrite filled_mono by lia. split; [done|].
    replace (_ <? _)%nat with false by lia. done.
Qed.

Lemma stream_trace_impl (B B' : Prop) (P P' : nat -> bool -> op -> res -> Prop) cs : forall t os,
  (B -> B') -> (forall pos ended f x, P pos ended f x -> P' pos ended f x) ->
  stream_trace B P t cs os -> stream_trace B' P' t cs os.
Proof.
  induction cs as [|c cs IH]; intros t os HB HP; [done|]. destruct os as [|o os]; [done|]. cbn [stream_trace].
  intros [H1 H2]. split; [|by eapply IH]. destruct c as [i f| | | | | | |]; try done. destruct (t !! i) as [[|pos ended]|]; try done.
  destruct o; naive_solver.
Qed.

Section P.
Context {W : Type} (E : env W) (fuel : nat).
Implicit Types h : heap W.

(** A handle that has ended is at the end of the stream. *)
Lemma inv_ended r c D t h i pos ended :
  stream_inv r c D t h -> t !! i = Some (At pos ended) ->
  (pos <= length (stream (calls_on r (h_log h))))%nat /\
  (ended = true -> is_Some (terminal D (calls_on r (h_log h))) /\ pos = length (stream (calls_on r (h_log h)))).
Proof.
  intros [Hown Hat Hsh (cm & Hcm & Hwin & _) Hlog Hle] Hi.
  assert (Hna : ~ all_closed (open_table t)) by (intros Ha; apply (Ha i), open_lookup; eauto).
  destruct (Hwin Hna) as [(W1 & W2 & W3) _]. pose proof (Hat _ _ _ Hi) as Hb.
  destruct (bf_open_wf h i _ (ow_wf _ _ _ _ Hown) Hb eq_refl) as (c' & cm' & r' & m & Ho).
  destruct (bf_member_self _ _ _ _ _ _ _ Ho) as [Hm Hbo]. cbn in Hbo.
  destruct Ho as [bf_b0 bf_ncl0 bf_c0 bf_cm0 bf_live0 bf_eof0]. cbn in bf_c0, bf_eof0. injection bf_c0 as <-.
  rewrite Hcm in bf_cm0. injection bf_cm0 as <-.
  pose proof (lb_off _ _ _ _ _ bf_live0 i Hm) as Hof. rewrite Hbo in Hof. unfold zlen in W2. split; [lia|].
  intros ->. destruct (bf_eof0 eq_refl) as [He Her]. destruct (bc_err cm) as [e|]; [|done]. split; [by rewrite W3|]. lia.
Qed.

(** The log only grows. *)
Lemma history_log cs : forall h h' os, history E fuel h cs = (h', os) -> exists X, h_log h' = h_log h ++ X.
Proof.
  induction cs as [|c cs IH]; intros h h' os H; cbn in H; [injection H as <- <-; exists []; by rewrite app_nil_r|].
  destruct (exec E fuel h c) as [h1 o] eqn:Hex. apply exec_log in Hex as [X1 HX1].
  destruct o; [destruct (history E fuel h1 cs) as [h2 os'] eqn:Hh..|]; injection H as <- <-; try (by exists X1);
    apply IH in Hh as [X2 HX2]; exists (X1 ++ X2); by rewrite HX2, HX1, app_assoc.
Qed.

(** One call, seen from the end of the program. *)
Lemma trace_step r c D t h cmd h1 o X :
  go_env E -> stream_inv r c D t h -> go_cmd cmd -> ~ wraps r cmd -> feasible h1 -> exec E fuel h cmd = (h1, o) ->
  let L := calls_on r (h_log h1 ++ X) in polite r D L ->
  stream_inv r c D (follow t cmd o) h1 /\
  stream_trace (exists ev, ev ∈ L /\ lies ev) (final_answer D (stream L) (terminal D L) r) t [cmd] [o].
Proof.
  intros Hge Hsi Hg1 Hn1 Hf1 Hex L Hpol.
  destruct (stream_step E fuel r c D t h cmd h1 o Hge Hsi Hg1 Hn1 Hf1 Hex) as [Hsi1 Hcall]. split; [done|].
  cbn [stream_trace]. split; [|done].
  destruct cmd as [i f| | | | | | |]; try done. destruct (t !! i) as [[|pos ended]|] eqn:Hi; try done.
  - pose proof (si_shut _ _ _ _ _ Hsi _ Hi) as Hb. rewrite (shut_exec E fuel h i _ f Hb) in Hex by done. injection Hex as <- <-.
    by destruct f.
  - destruct (Hcall i f pos ended eq_refl Hi) as (evs & HL1 & Hcm & Ha).
    assert (HL : L = calls_on r (h_log h1) ++ calls_on r X) by (unfold L; by rewrite calls_on_app).
    assert (Hpos : (pos <= length (stream (calls_on r (h_log h1))))%nat /\
      (ended = true -> is_Some (terminal D (calls_on r (h_log h1))) /\ pos = length (stream (calls_on r (h_log h1))))).
    { destruct (inv_ended r c D t h i pos ended Hsi Hi) as [H1 H2]. rewrite HL1. rewrite stream_app, app_length. split; [lia|].
      intros ->. destruct (H2 eq_refl) as [H3 H4]. pose proof (si_log _ _ _ _ _ Hsi1) as Hp1. rewrite HL1 in Hp1.
      destruct (terminal_stays r D _ _ Hp1 H3) as [H5 H6]. rewrite H6. split; [done|].
      rewrite stream_app in H5. apply (f_equal length) in H5. rewrite app_length in H5. lia. }
    destruct o as [x|e|]; [|split; [|apply Ha]|done].
    + split; [rewrite HL; apply answer_final; [by rewrite <- HL|apply Hpos|apply Hpos|done]|].
      intros j err -> ->. assert (j = length (h_b h)) as ->.
      { pose proof (si_at _ _ _ _ _ Hsi _ _ _ Hi) as Hb. pose proof (ow_wf _ _ _ _ (si_own _ _ _ _ _ Hsi)) as Hwf.
        destruct (bf_open_wf h i _ Hwf Hb eq_refl) as (c' & cm' & r' & m & Ho). unfold exec in Hex. cbn [cmd_prog] in Hex. rewrite Hb in Hex.
        cbn [method at_offset] in Hex. rewrite run_rbody, (run_bf_Copy E h i _ c' cm' r' m Hwf Ho) in Hex. by injection Hex as _ <- _. }
      pose proof (own_fresh _ _ _ _ (si_own _ _ _ _ _ Hsi)) as Hfr. unfold open_table in Hfr. rewrite lookup_fmap in Hfr. by destruct (t !! length (h_b h)).
    + destruct Ha as [(ev & Hin & Hlie) _]. exists ev. split; [|done]. rewrite HL, HL1. set_solver.
Qed.

Lemma trace_inv r c D cs : forall t h h' os,
  go_env E -> stream_inv r c D t h -> Forall go_cmd cs -> Forall (fun c => ~ wraps r c) cs -> feasible h' ->
  history E fuel h cs = (h', os) ->
  let L := calls_on r (h_log h') in
  stream_trace (exists ev, ev ∈ L /\ lies ev) (final_answer D (stream L) (terminal D L) r) t cs os.
Proof.
  induction cs as [|cmd cs IH]; intros t h h' os Hge Hsi Hgo Hnw Hf H L; cbn in H; [by injection H as <- <-|].
  pose proof (stream_history E fuel r c D (cmd :: cs) t h h' os Hge Hsi Hgo Hnw Hf H) as [_ _ _ _ Hpol' _].
  pose proof Hgo as Hgo'. apply Forall_cons in Hgo as [Hg1 Hg2]. pose proof Hnw as Hnw'. apply Forall_cons in Hnw as [Hn1 Hn2].
  destruct (exec E fuel h cmd) as [h1 o] eqn:Hex.
  assert (Hgen : forall os' X, h_log h' = h_log h1 ++ X -> feasible h1 -> os = o :: os' ->
    (stream_inv r c D (follow t cmd o) h1 -> stream_trace (exists ev, ev ∈ L /\ lies ev) (final_answer D (stream L) (terminal D L) r) (follow t cmd o) cs os') ->
    stream_trace (exists ev, ev ∈ L /\ lies ev) (final_answer D (stream L) (terminal D L) r) t (cmd :: cs) os).
  { intros os' X HX Hf1 -> Hrest.
    destruct (trace_step r c D t h cmd h1 o X Hge Hsi Hg1 Hn1 Hf1 Hex) as [Hsi1 [Hs _]]; [by rewrite <- HX|]. rewrite <- HX in Hs.
    split; [exact Hs|by apply Hrest]. }
  destruct o.
  - destruct (history E fuel h1 cs) as [h2 os'] eqn:Hh. injection H as <- <-.
    destruct (history_log _ _ _ _ Hh) as [X HX]. assert (feasible h1) by by eapply history_feasible.
    eapply Hgen; try done. intros Hsi1. by eapply IH.
  - destruct (history E fuel h1 cs) as [h2 os'] eqn:Hh. injection H as <- <-.
    destruct (history_log _ _ _ _ Hh) as [X HX]. assert (feasible h1) by by eapply history_feasible.
    eapply Hgen; try done. intros Hsi1. by eapply IH.
  - injection H as <- <-. eapply (Hgen [] []); [by rewrite app_nil_r|done|done|]. intros _. by destruct cs.
Qed.

Lemma one_stream r w h1 i cs h2 os D :
  wrapped_once E fuel r w h1 i cs h2 os -> streaming E fuel r h1 i D ->
  let L := calls_on r (h_log h2) in
  stream_trace (exists ev, ev ∈ L /\ lies ev) (final_answer D (stream L) (terminal D L) r) {[ i := At 0 false ]} cs os.
Proof.
  intros Hw HD. apply unowned_wrapped in Hw as (Hge & h0 & new & Hu & Hg & Hw & Hf1 & Hex & Hgo & Hnw & Hh & Hf).
  eapply trace_inv; try done. by eapply stream_new.
Qed.

Lemma polite_reader r w h1 i cs h2 os D :
  wrapped_once E fuel r w h1 i cs h2 os -> streaming E fuel r h1 i D ->
  polite r D (calls_on r (h_log h2)) /\ (0 <= D -> zlen (stream (calls_on r (h_log h2))) <= D).
Proof. intros Hw HD. destruct (stream_program E fuel r w h1 i cs h2 os D Hw HD) as [c Hc]. split; apply Hc. Qed.

Lemma one_call r w h1 i cs h2 os D j pos ended f h3 o :
  wrapped_once E fuel r w h1 i cs h2 os -> streaming E fuel r h1 i D ->
  follows {[ i := At 0 false ]} cs os !! j = Some (At pos ended) ->
  go_op f -> exec E fuel h2 (Call j f) = (h3, o) -> feasible h3 ->
  let L := calls_on r (h_log h2) in
  let L' := calls_on r (h_log h3) in
  exists evs, L' = L ++ evs /\ calls_made r L evs pos ended f /\ (forall x, o = ORet x -> stream_answer D (stream L') (terminal D L') r pos ended f x).
Proof.
  intros Hw HD Hj Hgo Hex Hf. destruct (stream_program E fuel r w h1 i cs h2 os D Hw HD) as [c Hc].
  destruct Hw as [Hge _].
  destruct (stream_step E fuel r c D _ h2 (Call j f) h3 o Hge Hc Hgo ltac:(by intros [|[]]) Hf Hex) as [_ Hcall].
  destruct (Hcall j f pos ended eq_refl Hj) as (evs & H1 & H2 & H3). exists evs. split; [done|]. split; [done|]. by intros x ->.
Qed.

Lemma exact_buffer r w h1 i cs h2 os D :
  wrapped_once E fuel r w h1 i cs h2 os -> streaming E fuel r h1 i D ->
  let t := follows {[ i := At 0 false ]} cs os in
  exists c cm, h_c h2 !! c = Some (CBuffered cm) /\
    (forall j pos ended, t !! j = Some (At pos ended) -> exists b, h_b h2 !! j = Some (BBuffered b) /\ bb_common b = Some c) /\
    ((forall j pos ended, t !! j <> Some (At pos ended)) /\ bc_bytes cm = [] \/
     exists lo, bc_start cm = Z.of_nat lo /\ bc_bytes cm = drop lo (stream (calls_on r (h_log h2))) /\
       (exists j ended, t !! j = Some (At lo ended)) /\ (forall j pos ended, t !! j = Some (At pos ended) -> (lo <= pos)%nat)).
Proof.
  intros Hw HD t. destruct (stream_program E fuel r w h1 i cs h2 os D Hw HD) as [c Hc]. fold t in Hc.
  pose proof Hc as [Hown Hat Hsh (cm & Hcm & Hwin & Hemp) Hlog Hle]. exists c, cm. split; [done|]. split.
  { intros j pos ended Hj. eexists. split; [by apply Hat in Hj|done]. }
  destruct (all_closed_dec (open_table t)) as [Ha|Hna].
  - left. split; [|by apply Hemp]. intros j pos ended Hj. apply (Ha j), open_lookup. eauto.
  - right. destruct (Hwin Hna) as [(W1 & W2 & W3) _]. pose proof Hna as Hna'. apply not_all_closed_open in Hna' as [j Hj].
    apply open_lookup in Hj as (pos & ended & Hj). pose proof (Hat _ _ _ Hj) as Hb.
    destruct (bf_open_wf h2 j _ (ow_wf _ _ _ _ Hown) Hb eq_refl) as (c' & cm' & r' & m & Ho).
    pose proof (bf_members _ _ _ _ _ _ _ (ow_wf _ _ _ _ Hown) Ho) as Hmem.
    destruct Ho as [bf_b0 bf_ncl0 bf_c0 bf_cm0 bf_live0 bf_eof0]. cbn in bf_c0. injection bf_c0 as <-.
    rewrite Hcm in bf_cm0. injection bf_cm0 as <-. pose proof bf_live0 as [L1 L2 L3 L4 L5 L6 L7 L8 L9].
    assert (Hel : forall k, k ∈ m <-> open_table t !! k = Some true).
    { intros k. rewrite L3, elem_refs. symmetry. apply (ow_open _ _ _ _ Hown). }
    assert (Hoff : forall k p e, t !! k = Some (At p e) -> boff (h_b h2) k = Z.of_nat p).
    { intros k p e Hk. unfold boff. by rewrite (Hat _ _ _ Hk). }
    exists (Z.to_nat (bc_start cm)). split; [lia|]. split; [done|].
    split.
    + rewrite L6 in L7. apply count_at_pos in L7 as (k & Hk & Hbk). apply Hel, open_lookup in Hk as (p & e & Hk).
      exists k, e. rewrite Hk. do 2 f_equal. rewrite (Hoff _ _ _ Hk) in Hbk. lia.
    + intros k p e Hk. assert (Hkm : k ∈ m) by (apply Hel, open_lookup; eauto). apply L5 in Hkm.
      rewrite (Hoff _ _ _ Hk) in Hkm. lia.
Qed.

(** ** Readers that stream a given string *)
Section Contract.
Context (r : rid) (gp : W -> nat) (d : bytes) (e : error).
Hypothesis Hst : streams E r gp d e.

Definition modest (ev : event) : Prop := match ev with EvReadAt _ _ _ _ _ | EvSeek _ _ _ _ _ => False | _ => True end.
Definition streamed h : Prop :=
  let L := calls_on r (h_log h) in
  Forall modest L ->
  stream L = take (gp (h_w h)) d /\ (gp (h_w h) <= length d)%nat /\ Forall (fun ev => ~ lies ev) L /\
  (forall e', first_error L = Some e' -> e' = e /\ gp (h_w h) = length d).

Lemma streamed_other h h' ev :
  h_log h' = h_log h ++ [ev] -> (modest ev \/ ev_reader ev <> Some r -> gp (h_w h') = gp (h_w h)) ->
  (ev_reader ev <> Some r \/ stream [ev] = [] /\ first_error [ev] = None /\ ~ lies ev) -> streamed h -> streamed h'.
Proof.
  intros Hl Hg Hev Hsd. unfold streamed. rewrite Hl, calls_on_app. intros Hm. apply Forall_app in Hm as [Hm1 Hm2].
  destruct (Hsd Hm1) as (H1 & H2 & H3 & H4).
  destruct (decide (ev_reader ev = Some r)) as [Heq|Hne].
  2: { rewrite Hg by by right. rewrite (calls_on_none r [ev]), app_nil_r by by constructor. done. }
  assert (Hm : modest ev).
  { unfold calls_on in Hm2. rewrite filter_cons, decide_True in Hm2 by done. by apply Forall_cons in Hm2 as [? _]. }
  rewrite Hg by by left. destruct Hev as [Hev|(Hs & Hfe & Hnl)]; [done|].
  - assert (Hc : calls_on r [ev] = [] \/ calls_on r [ev] = [ev]).
    { unfold calls_on. rewrite filter_cons. destruct (decide _); [by right|by left]. }
    destruct Hc as [->| ->]; [by rewrite app_nil_r|]. rewrite stream_app, Hs, app_nil_r, first_error_app, Hfe.
    split; [done|]. split; [done|]. split; [apply Forall_app; split; [done|by constructor]|].
    intros e' He'. apply H4. destruct (first_error (calls_on r (h_log h))); congruence.
Qed.

Lemma act_streamed {A} h (a : act A) h' x : act_step E h a = Some (h', x) -> streamed h -> streamed h'.
Proof.
  destruct a; cbn; try (intros [= <- _]; done).
  - destruct (h_b h !! i); [|done]. intros [= <- _]. done.
  - destruct (h_b h !! i); [|done]. intros [= <- _]. done.
  - destruct (h_c h !! c); [|done]. intros [= <- _]. done.
  - destruct (h_c h !! c); [|done]. intros [= <- _]. done.
  - destruct (decide (r0 = r)) as [->|Hne].
    + destruct (ev_read E (h_w h) r p) as [w' [[n q] err]] eqn:Hr. intros [= <- _] Hsd.
      destruct (st_read _ _ _ _ _ Hst _ _ _ _ _ _ Hr) as (Hn & Hg & Hd & Hq & He).
      set (got := take (Z.to_nat n) (fit p q)).
      assert (Hgot : got = take (Z.to_nat n) (drop (gp (h_w h)) d)).
      { rewrite <- Hq. unfold got, fit. rewrite take_take. unfold zlen in Hn. replace (_ `min` _)%nat with (Z.to_nat n) by lia.
        assert (Hlq : (Z.to_nat n <= length q)%nat).
        { apply (f_equal length) in Hq. rewrite !take_length, drop_length in Hq. lia. }
        by rewrite take_app_le. }
      unfold streamed. cbn [emit h_log h_w]. rewrite calls_on_app. intros Hm. apply Forall_app in Hm as [Hm _].
      destruct (Hsd Hm) as (H1 & H2 & H3 & H4). unfold calls_on at 2 4 6. rewrite filter_cons, decide_True by done. rewrite filter_nil.
      set (ev := EvRead r (zlen p) n got err).
      assert (Hev : ev_data ev = got /\ ev_error ev = err).
      { unfold ev. cbn. replace ((0 <=? n) && (n <=? zlen p)) with true by lia. done. }
      destruct Hev as [Hev1 Hev2]. rewrite stream_app. unfold stream at 2. cbn [map concat]. rewrite Hev1, app_nil_r, H1, Hgot.
      split; [|split; [done|split]].
      * rewrite Hg. rewrite <- (take_drop (gp (h_w h)) d) at 3. rewrite take_app_ge; rewrite take_length_le by lia; [|lia].
        f_equal. f_equal. lia.
      * apply Forall_app. split; [done|]. constructor; [|constructor]. cbn. lia.
      * intros e'. rewrite first_error_app. cbn [first_error]. rewrite Hev2.
        destruct (first_error (calls_on r (h_log h))) as [e0|] eqn:Hfe.
        -- intros [= <-]. destruct (H4 _ eq_refl) as [-> Hgl]. split; [done|]. lia.
        -- destruct He as [->|[-> Hgl]]; [done|]. intros [= <-]. done.
    + pose proof (st_read_other _ _ _ _ _ Hst (h_w h) r0 p Hne) as Hg.
      destruct (ev_read E (h_w h) r0 p) as [w' [[n q] err]] eqn:Hr. intros [= <- _]. eapply streamed_other; [done|intros Hmo; cbn in Hmo; first [exact Hg|apply Hg; destruct Hmo; congruence]|].
      left. cbn. congruence.
  - pose proof (st_readat _ _ _ _ _ Hst (h_w h) r0 p off) as Hg.
    destruct (ev_readat E (h_w h) r0 p off) as [w' [[n q] err]]. intros [= <- _]. eapply streamed_other; [done|intros Hmo; cbn in Hmo; first [exact Hg|apply Hg; destruct Hmo; congruence]|]. right. split; [done|split; [done|by intros []]].
  - pose proof (st_seek _ _ _ _ _ Hst (h_w h) r0 off whence) as Hg.
    destruct (ev_seek E (h_w h) r0 off whence) as [w' [n err]]. intros [= <- _]. eapply streamed_other; [done|intros Hmo; cbn in Hmo; first [exact Hg|apply Hg; destruct Hmo; congruence]|]. right. split; [done|split; [done|by intros []]].
  - pose proof (st_close _ _ _ _ _ Hst (h_w h) r0) as Hg.
    destruct (ev_close E (h_w h) r0) as [w' err]. intros [= <- _]. eapply streamed_other; [done|intros Hmo; cbn in Hmo; first [exact Hg|apply Hg; destruct Hmo; congruence]|]. right. split; [done|split; [done|by intros []]].
  - pose proof (st_stat _ _ _ _ _ Hst (h_w h) r0) as Hg.
    destruct (ev_stat E (h_w h) r0) as [w' [n err]]. intros [= <- _]. eapply streamed_other; [done|intros Hmo; cbn in Hmo; first [exact Hg|apply Hg; destruct Hmo; congruence]|]. right. split; [done|split; [done|by intros []]].
  - pose proof (st_write _ _ _ _ _ Hst (h_w h) w p) as Hg.
    destruct (ev_write E (h_w h) w p) as [w' y]. intros [= <- _]. eapply streamed_other; [done|intros Hmo; cbn in Hmo; first [exact Hg|apply Hg; destruct Hmo; congruence]|]. right. split; [done|split; [done|by intros []]].
Qed.
Lemma run_streamed {A} (m : prog A) : forall h h' o, run E h m = (h', o) -> streamed h -> streamed h'.
Proof.
  induction m as [a|ex| |X a k IH]; intros h h' o; cbn; try (intros [= <- _]; done).
  destruct (act_step E h a) as [[h1 x]|] eqn:Ha; [|intros [= <- _]; done].
  intros Hr Hs. eapply IH; [exact Hr|]. by eapply act_streamed.
Qed.
Lemma history_streamed cs : forall h h' os, history E fuel h cs = (h', os) -> streamed h -> streamed h'.
Proof.
  induction cs as [|c cs IH]; intros h h' os H Hs; cbn in H; [by injection H as <- <-|].
  destruct (exec E fuel h c) as [h1 o] eqn:Hex. unfold exec in Hex. apply run_streamed in Hex; [|done].
  destruct o; [destruct (history E fuel h1 cs) as [h2 os'] eqn:Hh..|]; injection H as <- <-; eauto.
Qed.

(** The bytes of the Reader, as far as they have come, are those of [d]. *)
Lemma faithful_end h2 i cs os D :
  let L := calls_on r (h_log h2) in
  streamed h2 -> polite r D L -> (0 <= D -> zlen (stream L) <= D) ->
  stream_trace (exists ev, ev ∈ L /\ lies ev) (final_answer D (stream L) (terminal D L) r) {[ i := At 0 false ]} cs os ->
  exists e', end_error D d e e' /\
  stream_trace False (final_answer D (cut D d) (Some e') r) {[ i := At 0 false ]} cs os.
Proof.
  cbv zeta. intros Hsd Hpol Hle Htr.
  assert (Hmod : Forall modest (calls_on r (h_log h2))).
  { apply Forall_forall. intros ev Hin. apply elem_of_list_split in Hin as (X1 & X2 & Hin).
    destruct (Hpol X1 ev X2 Hin) as [_ Hev]. by destruct ev. }
  destruct (Hsd Hmod) as (S1 & S2 & S3 & S4). set (L := calls_on r (h_log h2)) in *.
  assert (HB : ~ exists ev, ev ∈ L /\ lies ev).
  { intros (ev & Hin & Hl). rewrite Forall_forall in S3. by apply (S3 ev). }
  assert (Hlen : length (stream L) = gp (h_w h2)) by (rewrite S1, take_length; lia).
  destruct (terminal D L) as [e'|] eqn:Hte.
  - assert (Hcut : stream L = cut D d /\ end_error D d e e').
    { unfold terminal in Hte. unfold cut, end_error. destruct (first_error L) as [e0|] eqn:Hfe.
      - injection Hte as <-. destruct (S4 _ eq_refl) as [-> Hg]. rewrite S1. rewrite Hg, take_ge by lia.
        assert (HDd : 0 <= D -> zlen d <= D) by (intros HD0; specialize (Hle HD0); unfold zlen in *; lia).
        split; [|left; split; [lia|done]]. destruct (0 <=? D) eqn:HD0; [|done]. rewrite take_ge; [done|]. unfold zlen in HDd. lia.
      - destruct (_ && _) eqn:Hx; [|done]. injection Hte as <-. replace (0 <=? D) with true by lia. unfold zlen in *.
        split; [|right; split; [lia|done]]. rewrite S1. f_equal. lia. }
    destruct Hcut as [Hcut Hend]. exists e'. split; [done|]. eapply stream_trace_impl; [done| |exact Htr].
    intros pos ended f x. rewrite Hcut. done.
  - assert (Hpre : exists x, cut D d = stream L ++ x).
    { unfold cut. rewrite S1. destruct (0 <=? D) eqn:HD0.
      - exists (take (Z.to_nat D - gp (h_w h2)) (drop (gp (h_w h2)) d)).
        rewrite <- (take_drop (gp (h_w h2)) d) at 1.
        assert (HDd : (gp (h_w h2) <= Z.to_nat D)%nat) by (specialize (Hle ltac:(lia)); unfold zlen in *; lia).
        rewrite take_app_ge; rewrite take_length_le by lia; [done|lia].
      - exists (drop (gp (h_w h2)) d). by rewrite take_drop. }
    destruct Hpre as [x Hx].
    assert (exists e', end_error D d e e') as [e' He'].
    { unfold end_error. destruct (decide (D < 0 \/ zlen d <= D)); [eexists; left; split; done|]. exists EOF. right. split; [lia|done]. }
    exists e'. split; [done|]. rewrite Hx.
    assert (Hgen : forall cs t os, (forall i pos, t !! i = Some (At pos true) -> False) ->
      stream_trace (exists ev, ev ∈ L /\ lies ev) (final_answer D (stream L) None r) t cs os ->
      stream_trace False (final_answer D (stream L ++ x) (Some e') r) t cs os).
    { clear -HB. induction cs as [|c cs IH]; intros t os Ht; [done|]. destruct os as [|o os]; [done|]. cbn [stream_trace].
      intros [H1 H2]. split.
      - destruct c as [j f| | | | | | |]; try done. destruct (t !! j) as [[|pos ended]|] eqn:Hj; try done.
        destruct o as [y|ex|]; [|by destruct HB, H1|done]. destruct H1 as [H1 Hfr]. split; [|done]. apply answer_extend; [|done]. intros ->. by eapply Ht.
      - apply IH; [|done]. intros j pos Hj.
        destruct c as [k f| | | | | | |]; try (by eapply Ht). destruct f as [|p| | | | | |]; try (by eapply Ht); cbn in Hj, H1;
          destruct o as [[|n p' err| | | |k' [er|]| | |]| |]; try (by eapply Ht); destruct (t !! k) as [[|pos' ended']|] eqn:Hk; try (by eapply Ht).
        + destruct (decide (k = j)) as [->|Hne]; [|rewrite lookup_insert_ne in Hj by done; by eapply Ht].
          rewrite lookup_insert in Hj. destruct H1 as [(err' & [= _ _ <-] & He) _]. injection Hj as _ Hj.
          destruct err; [|done]. destruct (_ || _); [|done]. destruct He as [_ ?]. done.
        + destruct (decide (k = j)) as [->|Hne]; [by rewrite lookup_insert in Hj|rewrite lookup_insert_ne in Hj by done; by eapply Ht].
        + destruct (decide (k' = j)) as [->|Hne]; [rewrite lookup_insert in Hj; injection Hj as -> ->; by eapply Ht|rewrite lookup_insert_ne in Hj by done; by eapply Ht]. }
    apply Hgen; [|done]. intros j pos Hj. by apply lookup_singleton_Some in Hj as [_ [=]].
Qed.
Lemma faithful w h1 i cs h2 os D :
  gp w = 0%nat ->
  wrapped_once E fuel r w h1 i cs h2 os -> streaming E fuel r h1 i D ->
  exists e', end_error D d e e' /\
  stream_trace False (final_answer D (cut D d) (Some e') r) {[ i := At 0 false ]} cs os.
Proof.
  intros H0 Hw HD. pose proof (one_stream r w h1 i cs h2 os D Hw HD) as Htr. cbv zeta in Htr.
  pose proof (polite_reader r w h1 i cs h2 os D Hw HD) as [Hpol Hle].
  eapply faithful_end; [|done..].
  destruct Hw as (Hge & cs0 & os0 & h0 & new & Hgo & Hnw & Hw & Hh0 & Hh1 & Hh2 & Hf).
  eapply history_streamed; [exact Hh2|]. unfold exec in Hh1. eapply run_streamed; [exact Hh1|]. eapply history_streamed; [exact Hh0|].
  unfold streamed. cbn. intros _. rewrite H0, take_0. split; [done|]. split; [lia|]. split; [constructor|done].
Qed.
End Contract.
End P.

(** ** The forms used in the property files *)
Section F.
Context {W : Type} (E : env W) (fuel : nat).

Lemma never_again r w h1 i cs h2 os D before ev after :
  wrapped_once E fuel r w h1 i cs h2 os -> streaming E fuel r h1 i D ->
  calls_on r (h_log h2) = before ++ ev :: after ->
  Forall not_close before /\
  match ev with
  | EvRead _ _ _ _ _ => first_error before = None /\ (0 <= D -> zlen (stream before) < D)
  | EvClose _ _ | EvStat _ _ _ => True
  | _ => False
  end.
Proof.
  intros Hw HD Heq. destruct (polite_reader E fuel r w h1 i cs h2 os D Hw HD) as [Hp _].
  destruct (Hp before ev after Heq) as [H1 H2]. split; [done|]. destruct ev; try done. split; [apply H2|]. intros HD0.
  destruct H2 as (_ & _ & ? & H2). specialize (H2 HD0). lia.
Qed.
Lemma within_length r w h1 i cs h2 os D before r' len n got err after :
  wrapped_once E fuel r w h1 i cs h2 os -> streaming E fuel r h1 i D -> 0 <= D ->
  calls_on r (h_log h2) = before ++ EvRead r' len n got err :: after -> zlen (stream before) + len <= D.
Proof.
  intros Hw HD HD0 Heq. destruct (polite_reader E fuel r w h1 i cs h2 os D Hw HD) as [Hp _].
  destruct (Hp _ _ _ Heq) as (_ & _ & _ & _ & H). by apply H.
Qed.
Lemma bounded_read_ahead r w h1 i cs h2 os D j pos ended p h3 o :
  wrapped_once E fuel r w h1 i cs h2 os -> streaming E fuel r h1 i D ->
  follows {[ i := At 0 false ]} cs os !! j = Some (At pos ended) ->
  zlen p <= max_slice -> exec E fuel h2 (Call j (Read p)) = (h3, o) -> feasible h3 ->
  exists evs, calls_on r (h_log h3) = calls_on r (h_log h2) ++ evs /\
    if ended then evs = [] else read_ahead r (calls_on r (h_log h2)) evs pos p.
Proof.
  intros Hw HD Hj Hp Hex Hf. destruct (one_call E fuel r w h1 i cs h2 os D j pos ended (Read p) h3 o Hw HD Hj Hp Hex Hf) as (evs & H1 & H2 & _).
  by exists evs.
Qed.
End F.
