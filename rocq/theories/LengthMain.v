(** * The Content-Length that Build fills in (proofs) *)
From stdpp Require Import gmap.
From Coq Require Import ZifyBool.
From Verif Require Import RespFacts LengthSpec Post Quiet Wf Buffered Family Own Mem Source Stream ProofsStream HeapRun ServeProofs WriterProofs ServeMain Deliver DeliverFam WriterMain Twins DeliverMain BuilderMain.

Section Build.
Context {V : Type} (U : uenv V) (fuel : nat).
Implicit Types s : state V.
Notation E := (wenv U).
(** Build asks the Body once. *)
Lemma builds_asks s b j s' p n : builds U fuel s b j s' p ->
  exec E fuel (s_h s) (Call j BytesRemaining) = (s_h s, ORet (RInt n)) ->
  s_h s' = s_h s /\ labelled s' p j (if 0 <=? n then Some (decimal n) else None).
Proof.
  intros (Hs & (x & X & Hb & Hj & HX & HL) & Hex) Hn.
  destruct (build U fuel s b x X j s' p Hs Hb HX Hj Hex) as (n' & h & m & Hn' & Hr & -> & Hh & _ & X' & Hv & _ & Hl & _).
  rewrite Hn in Hn'. injection Hn' as <- <-. split; [done|]. eexists _, m, X'. rewrite Hr, lookup_app_r, Nat.sub_diag by done.
  split; [reflexivity|]. split; [done|]. split; [done|]. split; [done|]. by rewrite Hl, HL.
Qed.

(** ** Bytes in memory *)
Theorem memory_length s b j s' p y : builds U fuel s b j s' p ->
  runs_to U fuel s -> h_b (s_h s) !! j = Some (BBytes y) -> by_closed y = false -> (by_eof y = true -> by_offset y = zlen (by_data y)) ->
  exists R, labelled s' p j (Some (decimal (zlen R))) /\
    forall s2, runs_to U fuel s2 -> h_b (s_h s2) !! j = h_b (s_h s') !! j -> delivers U fuel False s2 j R.
Proof.
  intros Hb Hr Hj Hcl He. destruct (runs_wf U fuel s Hr) as [Hwf _]. destruct (wf_b _ Hwf _ _ Hj) as [Hb1 Hb2].
  assert (Hn : exec E fuel (s_h s) (Call j BytesRemaining) = (s_h s, ORet (RInt (zlen (by_data y) - by_offset y)))).
  { unfold exec, cmd_prog. rewrite Hj. cbn. rewrite Hj. cbn. by rewrite Hcl. }
  destruct (builds_asks _ _ _ _ _ _ Hb Hn) as [Hh Hl]. replace (0 <=? _) with true in Hl by lia.
  set (R := if by_eof y then [] else drop (Z.to_nat (by_offset y)) (by_data y)).
  assert (HR : zlen R = zlen (by_data y) - by_offset y).
  { unfold R. destruct (by_eof y); [rewrite He by done; by rewrite Z.sub_diag|]. unfold zlen in *. rewrite drop_length. lia. }
  exists R. rewrite HR. split; [done|]. intros s2 Hr2 Hj2. rewrite Hh, Hj in Hj2.
  by apply (memory U fuel (delivers U fuel) s2 j y (enough_delivers U fuel)).
Qed.
Theorem empty_length s b j s' p y : builds U fuel s b j s' p -> h_b (s_h s) !! j = Some (BEmpty y) -> labelled s' p j (Some ["0"]).
Proof.
  intros Hb Hj. assert (Hn : exec E fuel (s_h s) (Call j BytesRemaining) = (s_h s, ORet (RInt 0))) by (unfold exec, cmd_prog; rewrite Hj; done).
  by destruct (builds_asks _ _ _ _ _ _ Hb Hn).
Qed.
End Build.

(** ** Seekable Readers *)
Section Seekable.
Context {V : Type} (U : uenv V) (fuel : nat) (k : skind) (r : rid) (live : V -> Prop) (d : bytes) (early : bool) (D : nat).
Notation E := (wenv U).
Notation lw := (fun w : wst V => live (v_v w)).
Notation vR := (fun v v' : V => live v -> live v').
Hypothesis Hserve : match k with KAt => serves_at (u_env U) r live d early | KSeek => serves_seek (u_env U) r live d early end.
Hypothesis Hcalm : calm U vR.
Hypothesis HD : (D <= length d)%nat.
Let F := first_bytes r early (Z.of_nat D) d.
Definition ended (t : table) : Prop := forall i pos, t !! i = Some (At pos true) -> pos = D.

Lemma ended_step t i f t' x : ended t -> (forall j pos e, t !! j = Some (At pos e) -> (pos <= D)%nat) -> fam_step F t i f t' x -> ended t'.
Proof.
  intros He Hle (st & st' & Hst & Hid & Ht).
  assert (HF : length (fam_data F) = D) by (unfold F, first_bytes; cbn; rewrite Nat2Z.id; by apply take_length_le).
  assert (Hnew : forall pos, st' = At pos true -> pos = D).
  { intros pos ->. destruct st as [|pos0 e0]; [destruct Hid as [[=] _]|]. pose proof (Hle _ _ _ Hst) as Hp.
    assert (Hkeep : At pos true = At pos0 e0 -> pos = D) by (intros [= -> <-]; by eapply He).
    destruct f; cbn [ideal] in Hid; try (apply Hkeep, Hid).
    - destruct e0; [apply Hkeep, Hid|]. destruct Hid as (k0 & err & (Hk & H1 & H2 & H3) & _ & [= -> Herr]). rewrite HF in *.
      destruct err as [er|]; [|done]. destruct (decide (length p < D - pos0)%nat) as [Hlt|Hge]; [discriminate (H1 Hlt)|]. lia.
    - destruct Hid as [[=] _].
    - destruct (seek_to _ _ _ _) as [n [er|]]; [apply Hkeep, Hid|]. destruct Hid as [_ Hx]. by injection Hx. }
  assert (Hins : t' = <[i := st']> t -> ended t').
  { intros ->. intros j pos Hj. destruct (decide (i = j)) as [<-|Hne].
    - rewrite lookup_insert in Hj. injection Hj as ->. by apply Hnew.
    - rewrite lookup_insert_ne in Hj by done. by eapply He. }
  destruct st as [|pos0 e0]; [by apply Hins|]. destruct f; try (by apply Hins). destruct x; try (by apply Hins). destruct Ht as [_ ->]. intros j pos Hj.
  match type of Hj with <[?a := _]> t !! j = _ => destruct (decide (a = j)) as [<-|Hne] end.
  - rewrite lookup_insert in Hj. injection Hj as -> ->. by eapply He.
  - rewrite lookup_insert_ne in Hj by done. by eapply He.
Qed.

Lemma src_kept v s1 i cs s2 os c : wrapped_in U fuel r v s1 i cs s2 os -> src_inv k r lw D c {[ i := At 0 false ]} (s_h s1) -> wgood U (world s1) ->
  (exists t, src_inv k r lw D c t (s_h s2) /\ ended t) /\ wgood U (world s2).
Proof.
  intros Hw HI1 Hwi. pose proof (proj1 Hw) as Hgo.
  apply (wrapped_inv U fuel vR r (fun h => exists t, src_inv k r lw D c t h /\ ended t) v s1 i cs s2 os Hcalm (vR_refl live) (vR_trans live) Hw); [|done|..].
  - exists {[ i := At 0 false ]}. split; [done|]. intros j pos Hj. by apply lookup_singleton_Some in Hj as [_ [=]].
  - intros h cmd h' o (t & HI & He) Hgc Hnw Hex Hfe.
    pose proof (src_step E fuel k r lw d early D (serve_w U k r live d early Hserve Hcalm) HD _ t h cmd h' o (go_wenv U Hgo) HI Hgc Hnw Hfe Hex) as H.
    destruct cmd as [i' f| | | | | | |]; eauto.
    destruct (t !! i'); [|eauto]. destruct H as (x & t' & _ & Hs & H). exists t'. split; [done|]. eapply ended_step; [done| |done].
    intros j pos e Hj. by apply (sr_at _ _ _ _ _ _ _ HI) in Hj as [_ ?].
  - intros h w (t & HI & He) Hv. exists t. split; [by apply src_world|done].
Qed.

Theorem seekable_length v s1 i cs s os b j s' p :
  match k with KAt => cp_readerat (ev_caps (u_env U) r) = true | KSeek => cp_readerat (ev_caps (u_env U) r) = false /\ cp_seeker (ev_caps (u_env U) r) = true end ->
  live v -> wrapped_in U fuel r v s1 i cs s os -> announced U fuel s1 i (Z.of_nat D) -> holds U fuel s j r ->
  builds U fuel s b j s' p ->
  exists R, labelled s' p j (Some (decimal (zlen R))) /\
    forall cs2 s2 os2, wrapped_in U fuel r v s1 i cs2 s2 os2 -> h_b (s_h s2) !! j = h_b (s_h s') !! j -> delivers U fuel False s2 j R.
Proof.
  intros Hkind Hl Hw Hann Hh Hb. pose proof (proj1 Hw) as Hgo.
  destruct (src_made U fuel k r live d early D Hserve Hcalm Hgo HD v s1 i cs s os Hkind Hl Hw Hann) as [[c HI1] Hwi].
  destruct (src_kept v s1 i cs s os c Hw HI1 Hwi) as [(t & HI & He) _].
  pose proof (holds_refers U fuel r c _ s j (sr_own _ _ _ _ _ _ _ HI) Hh) as Ho.
  assert (Hna : ~ all_closed (open_table t)) by (intros Ha; by apply (Ha j)).
  apply open_lookup in Ho as (pos & e & Hj). destruct (sr_at _ _ _ _ _ _ _ HI j pos e Hj) as [Hbj Hp].
  destruct (sr_cm _ _ _ _ _ _ _ HI Hna) as [cnt Hc].
  assert (Hko : kopen k (s_h s) j c (if e then Some EOF else None) (Z.of_nat pos) r (Z.of_nat D) cnt).
  { constructor; try done; try lia. pose proof (sr_max _ _ _ _ _ _ _ HI). lia. }
  pose proof (k_BytesRemaining E fuel _ _ _ _ _ _ _ _ _ Hko) as Hn.
  destruct (builds_asks U fuel _ _ _ _ _ _ Hb Hn) as [Hh' Hlab]. replace (0 <=? _) with true in Hlab by lia.
  set (R := if e then [] else drop pos (take D d)).
  assert (HR : zlen R = Z.of_nat D - Z.of_nat pos).
  { unfold R. destruct e; [rewrite (He j pos Hj); by rewrite Z.sub_diag|]. unfold zlen. rewrite drop_length, take_length_le by lia. lia. }
  exists R. rewrite HR. split; [done|]. intros cs2 s2 os2 Hw2 Hun. rewrite Hh', Hbj in Hun.
  destruct (src_kept v s1 i cs2 s2 os2 c Hw2 HI1 Hwi) as [(t2 & HI2 & _) Hg2].
  assert (Ho2 : open_table t2 !! j = Some true).
  { apply (ow_open _ _ _ _ (sr_own _ _ _ _ _ _ _ HI2)). eexists. split; [exact Hun|]. generalize k. by intros []. }
  apply open_lookup in Ho2 as (pos2 & e2 & Hj2). destruct (sr_at _ _ _ _ _ _ _ HI2 j pos2 e2 Hj2) as [Hb2 _]. rewrite Hun in Hb2.
  assert (pos2 = pos /\ e2 = e) as [-> ->].
  { clear -Hb2. destruct k; injection Hb2 as H1 H2; (split; [lia|by destruct e, e2]). }
  exact (src_deliver U fuel k r live d early D Hserve Hcalm Hgo (delivers U fuel) (enough_delivers U fuel) HD c t2 s2 j pos e HI2 Hj2 Hg2).
Qed.
End Seekable.

(** ** Streams *)
Section Streaming.
Context {V : Type} (U : uenv V) (fuel : nat) (r : rid) (gp : V -> nat) (d : bytes) (D : Z).
Notation E := (wenv U).
Notation vR := (fun v v' : V => gp v' = gp v).
Hypothesis Hst : streams (u_env U) r gp d EOF.
Hypothesis Hcalm : calm U vR.
Theorem stream_length v s1 i cs s os b j s' p :
  gp v = 0%nat -> wrapped_in U fuel r v s1 i cs s os -> announced U fuel s1 i D ->
  (cp_readerat (ev_caps (u_env U) r) || cp_seeker (ev_caps (u_env U) r)) && (0 <=? D) = false -> D <= zlen d -> holds U fuel s j r ->
  builds U fuel s b j s' p ->
  exists R, (labelled s' p j (Some (decimal (zlen R))) \/ D < 0 /\ labelled s' p j None) /\
    forall cs2 s2 os2, wrapped_in U fuel r v s1 i cs2 s2 os2 -> h_b (s_h s2) !! j = h_b (s_h s') !! j -> delivers U fuel True s2 j R.
Proof.
  intros H0 Hw Hann Hkind HDd Hh Hb. pose proof (proj1 Hw) as Hgo.
  destruct (stream_made U fuel r gp d D Hst Hcalm Hgo v s1 i cs s os H0 Hw Hann Hkind) as [(c & HI1 & Hs1) Hwi].
  destruct (stream_kept U fuel r gp d D Hst Hcalm Hgo v s1 i cs s os c Hw HI1 Hs1 Hwi) as [(t & HI & Hs) _].
  pose proof (holds_refers U fuel r c _ s j (si_own _ _ _ _ _ HI) Hh) as Ho. apply open_lookup in Ho as (pos & e & Hj).
  pose proof (si_at _ _ _ _ _ HI j pos e Hj) as Hbj. destruct (inv_ended r c D t _ j pos e HI Hj) as [Hp He].
  destruct (stream_facts r gp d D c t (s_h s) HI Hs) as ((x & Hx) & _ & Hterm). set (L := calls_on r (h_log (s_h s))) in *.
  assert (Hcut : 0 <= D -> length (cut D d) = Z.to_nat D).
  { intros HD0. unfold cut. replace (0 <=? D) with true by lia. unfold zlen in HDd. rewrite take_length_le by lia. done. }
  assert (Hlen : (pos <= length (cut D d))%nat) by (rewrite Hx, app_length; lia).
  set (R := if e then [] else drop pos (cut D d)).
  assert (HR : zlen R = Z.of_nat (length (cut D d)) - Z.of_nat pos).
  { unfold R. destruct e; [|unfold zlen; rewrite drop_length; lia]. destruct (He eq_refl) as [[e' He'] Hpe]. destruct (Hterm _ He') as [Heq _]. rewrite <- Heq, Hpe. by rewrite Z.sub_diag. }
  destruct (exec E fuel (s_h s) (Call j BytesRemaining)) as [h1 o] eqn:Hex.
  assert (Hsame : h1 = s_h s /\ exists n, o = ORet (RInt n) /\ (n = zlen R \/ D < 0 /\ n = -1)).
  { destruct (bf_open_wf (s_h s) j _ (ow_wf _ _ _ _ (si_own _ _ _ _ _ HI)) Hbj eq_refl) as (c' & cm' & r' & m & Hop).
    assert (Hq := Hex). unfold exec in Hq. cbn [cmd_prog] in Hq. rewrite Hbj in Hq. cbn [method at_offset] in Hq.
    rewrite run_rint, (run_bf_BytesRemaining _ _ _ _ _ _ _ _ Hop) in Hq. injection Hq as <- <-. split; [done|].
    eexists. split; [reflexivity|].
    destruct Hop as [bf_b0 bf_ncl0 bf_c0 bf_cm0 bf_live0 bf_eof0]. cbn in bf_c0, bf_eof0 |- *. injection bf_c0 as <-.
    destruct (si_cm _ _ _ _ _ HI) as (cm & Hcm & Hwin & _). rewrite Hcm in bf_cm0. injection bf_cm0 as <-.
    assert (Hna : ~ all_closed (open_table t)) by (intros Ha; apply (Ha j), open_lookup; eauto).
    destruct (Hwin Hna) as [(W1 & W2 & W3) _]. fold L in W1, W2, W3. destruct bf_live0 as [L1 L2 L3 L4 L5 L6 L7 L8 L9].
    destruct (bc_err cm) as [er|] eqn:Her.
    - destruct (Hterm _ W3) as [Heq _]. rewrite L9 by congruence. rewrite W2, Heq. unfold zlen at 1. replace (_ <? 0) with false by lia. left.
      destruct e; [unfold R; done|]. rewrite HR. unfold zlen. lia.
    - destruct e; [destruct (bf_eof0 eq_refl) as [_ Hc]; done|]. destruct W3 as [_ ->].
      destruct (D <? 0) eqn:HD0; [right; lia|]. left. rewrite HR, Hcut by lia. lia. }
  destruct Hsame as (-> & n & -> & Hn). destruct (builds_asks U fuel _ _ _ _ _ _ Hb Hex) as [Hh' Hlab].
  exists R. split.
  { destruct Hn as [->|[HD0 ->]]; [left|by right]. by replace (0 <=? zlen R) with true in Hlab by (unfold zlen; lia). }
  intros cs2 s2 os2 Hw2 Hun. rewrite Hh', Hbj in Hun.
  destruct (stream_kept U fuel r gp d D Hst Hcalm Hgo v s1 i cs2 s2 os2 c Hw2 HI1 Hs1 Hwi) as [(t2 & HI2 & Hs2) Hg2].
  assert (Ho2 : open_table t2 !! j = Some true) by (apply (ow_open _ _ _ _ (si_own _ _ _ _ _ HI2)); eexists; split; [exact Hun|done]).
  apply open_lookup in Ho2 as (pos2 & e2 & Hj2). pose proof (si_at _ _ _ _ _ HI2 j pos2 e2 Hj2) as Hb2. rewrite Hun in Hb2.
  assert (pos2 = pos /\ e2 = e) as [-> ->] by (injection Hb2 as H1 H2; split; [lia|done]).
  exact (stream_deliver U fuel r gp d D Hst Hcalm Hgo (delivers U fuel) (enough_delivers U fuel) c t2 s2 j pos e HI2 Hs2 Hj2 Hg2).
Qed.
End Streaming.

(** ** As the property file states them *)
Section Final.
Context {V : Type} (U : uenv V) (fuel : nat) (r : rid) (live : V -> Prop) (d : bytes) (early : bool).
Theorem readerat_length : serves_at (u_env U) r live d early -> cp_readerat (ev_caps (u_env U) r) = true -> calm U (fun v v' => live v -> live v') ->
  forall v s1 i cs s os (D : Z) b j s' p, live v -> wrapped_in U fuel r v s1 i cs s os -> announced U fuel s1 i D -> 0 <= D <= zlen d ->
  holds U fuel s j r -> builds U fuel s b j s' p ->
  exists R, labelled s' p j (Some (decimal (zlen R))) /\
    forall cs2 s2 os2, wrapped_in U fuel r v s1 i cs2 s2 os2 -> h_b (s_h s2) !! j = h_b (s_h s') !! j -> delivers U fuel False s2 j R.
Proof.
  intros Hs Hc Hcalm v s1 i cs s os D b j s' p Hl Hw Hann HD Hh Hb. apply nat_length in HD as (n & -> & Hn & _).
  exact (seekable_length U fuel KAt r live d early n Hs Hcalm Hn v s1 i cs s os b j s' p Hc Hl Hw Hann Hh Hb).
Qed.
Theorem seeker_length : serves_seek (u_env U) r live d early -> cp_readerat (ev_caps (u_env U) r) = false -> cp_seeker (ev_caps (u_env U) r) = true ->
  calm U (fun v v' => live v -> live v') ->
  forall v s1 i cs s os (D : Z) b j s' p, live v -> wrapped_in U fuel r v s1 i cs s os -> announced U fuel s1 i D -> 0 <= D <= zlen d ->
  holds U fuel s j r -> builds U fuel s b j s' p ->
  exists R, labelled s' p j (Some (decimal (zlen R))) /\
    forall cs2 s2 os2, wrapped_in U fuel r v s1 i cs2 s2 os2 -> h_b (s_h s2) !! j = h_b (s_h s') !! j -> delivers U fuel False s2 j R.
Proof.
  intros Hs Hc1 Hc2 Hcalm v s1 i cs s os D b j s' p Hl Hw Hann HD Hh Hb. apply nat_length in HD as (n & -> & Hn & _).
  exact (seekable_length U fuel KSeek r live d early n Hs Hcalm Hn v s1 i cs s os b j s' p (conj Hc1 Hc2) Hl Hw Hann Hh Hb).
Qed.
End Final.
Theorem streaming_length {V : Type} (U : uenv V) (fuel : nat) (r : rid) (gp : V -> nat) (d : bytes) :
  streams (u_env U) r gp d EOF -> calm U (fun v v' => gp v' = gp v) ->
  forall v s1 i cs s os (D : Z) b j s' p, gp v = 0%nat -> wrapped_in U fuel r v s1 i cs s os -> announced U fuel s1 i D ->
  (cp_readerat (ev_caps (u_env U) r) || cp_seeker (ev_caps (u_env U) r)) && (0 <=? D) = false -> D <= zlen d ->
  holds U fuel s j r -> builds U fuel s b j s' p ->
  exists R, (labelled s' p j (Some (decimal (zlen R))) \/ D < 0 /\ labelled s' p j None) /\
    forall cs2 s2 os2, wrapped_in U fuel r v s1 i cs2 s2 os2 -> h_b (s_h s2) !! j = h_b (s_h s') !! j -> delivers U fuel True s2 j R.
Proof. intros Hs Hcalm v s1 i cs s os D b j s' p. by apply stream_length. Qed.
