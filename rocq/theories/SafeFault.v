(** * What Serve writes if the source fails or is short (proofs) *)
From stdpp Require Import gmap.
From Coq Require Import ZifyBool.
From Verif Require Import RespFacts Twins Own Source Family Stream ProofsStream HeapRun Short Deliver DeliverMain Safe ShortSpec DeliverSpec SafeSpec.

Section W.
Context {V : Type} (U : uenv V).
Lemma truthful_at_w r (live : V -> Prop) d : calm U (fun v v' => live v -> live v') -> truthful_at (u_env U) r live d -> truthful_at (wenv U) r (fun w => live (v_v w)) d.
Proof.
  intros Hcalm [H1 H2]. split; [by apply until_closed_w|]. intros w p off w' n q err Hl Hoff. cbn.
  destruct (ev_readat _ _ _ _ _) as [v [[n' q'] err']] eqn:Hr. intros [= <- <- <- <-]. by eapply H2.
Qed.
Lemma truthful_seek_w r (live : V -> Prop) d : calm U (fun v v' => live v -> live v') -> truthful_seek (u_env U) r live d -> truthful_seek (wenv U) r (fun w => live (v_v w)) d.
Proof.
  intros Hcalm [H1 H2]. split; [by apply until_closed_w|]. intros w off w1 n1 Hl Hoff. cbn. destruct (ev_seek _ _ _ _ _) as [v1 [n2 e2]] eqn:Hs. intros [= <- <- ->].
  intros p w' n q err. cbn. destruct (ev_read _ _ _ _) as [v [[n' q'] err']] eqn:Hr. intros [= <- <- <- <-]. by eapply H2.
Qed.
Lemma ends_at_w r (live : V -> Prop) d early : calm U (fun v v' => live v -> live v') -> ends_at (u_env U) r live d early -> ends_at (wenv U) r (fun w => live (v_v w)) d early.
Proof.
  intros Hcalm [H1 H2]. split; [by apply serves_at_w|]. intros w p off w' n q err Hl Hoff. cbn.
  destruct (ev_readat _ _ _ _ _) as [v [[n' q'] err']] eqn:Hr. intros [= <- <- <- <-]. by eapply H2.
Qed.
Lemma ends_seek_w r (live : V -> Prop) d early : calm U (fun v v' => live v -> live v') -> ends_seek (u_env U) r live d early -> ends_seek (wenv U) r (fun w => live (v_v w)) d early.
Proof.
  intros Hcalm [H1 H2]. split; [by apply serves_seek_w|]. intros w off Hl Hoff. cbn. destruct (H2 (v_v w) off Hl Hoff) as (v1 & n1 & Hs & Hrd). rewrite Hs.
  eexists _, n1. split; [done|]. intros p w' n q err. cbn. destruct (ev_read _ _ _ _) as [v [[n' q'] err']] eqn:Hr. intros [= <- <- <- <-]. by eapply Hrd.
Qed.
End W.

Section Fault.
Context {V : Type} (U : uenv V) (fuel : nat) (k : skind) (r : rid) (live : V -> Prop) (d : bytes) (D : nat).
Notation E := (wenv U).
Notation lw := (fun w : wst V => live (v_v w)).
Notation vR := (fun v v' : V => live v -> live v').
Context (A : nat -> bytes -> nat -> option error -> Prop) (all : Prop).
Hypothesis Huc : until_closed E r lw.
Hypothesis Hrd : forall h off px, lw (h_w h) -> Z.of_nat off <= max_i64 ->
  exists h1 n q e, krd E k r h px (Z.of_nat off) = (h1, ORet (Z.of_nat n, q, e)) /\ h_b h1 = h_b h /\ h_c h1 = h_c h /\
    (n <= length px)%nat /\ length q = length px /\ take n q = take n (drop off d) /\ A off px n e.
(** If the source is only short, then an error is EOF at its end. *)
Hypothesis Hall : all -> (length d <= D)%nat /\ forall L pos p n q err, (length d <= L)%nat -> (pos <= L)%nat -> obeys d A L pos p n q err ->
  err <> None -> (length d <= L `min` (pos + n))%nat.
Hypothesis Hcalm : calm U vR.
Hypothesis Hgo : go_uenv U.
Notation rinv := (rule_inv k r lw).

(** The length believed in, and the errors remembered. *)
Definition sane (L : nat) (t : gmap nat hand) : Prop :=
  (L <= D)%nat /\ (all -> (length d <= L)%nat /\ forall i pos e, t !! i = Some (Pos pos (Some e)) -> (length d <= pos)%nat).
Lemma sane_step L t i f L' t' x : shrink_step (obeys d A) r L t i f L' t' x -> sane L t -> sane L' t'.
Proof.
  intros (st & st' & Hst & Hstep & Ht') [HL Hs].
  assert (Hkey : (L' <= L)%nat /\ (all -> (length d <= L')%nat /\ forall pos e, st' = Pos pos (Some e) -> (length d <= pos)%nat)).
  { destruct st as [|pos e]; cbn in Hstep.
    { destruct Hstep as (-> & -> & _). split; [done|]. intros Ha. split; [by apply Hs|done]. }
    assert (Hsame : L' = L -> st' = Pos pos e -> (L' <= L)%nat /\ (all -> (length d <= L')%nat /\ forall pos e, st' = Pos pos (Some e) -> (length d <= pos)%nat)).
    { intros -> ->. split; [done|]. intros Ha. destruct (Hs Ha) as [H1 H2]. split; [done|]. intros pos' e' [= -> ->]. by eapply H2. }
    destruct f as [|p| |off wh|p off| | |]; try (destruct Hstep as (H1 & H2 & _); by apply Hsame).
    - destruct e as [e|]; [destruct Hstep as (H1 & H2 & _); by apply Hsame|]. destruct Hstep as (n & q & err & Hob & _ & -> & ->). clear Hsame. split; [destruct err; lia|].
      intros Ha. destruct (Hs Ha) as [H1 H2]. destruct (Hall Ha) as [_ Hx]. specialize (Hx _ _ _ _ _ _ H1 (Nat.le_min_r pos L) Hob).
      destruct err as [err|]; [|by split]. specialize (Hx ltac:(done)). split; [done|]. intros pos' e' [= <- _]. lia.
    - destruct Hstep as (-> & -> & _). clear Hsame. split; [done|]. intros Ha. split; [by apply Hs|done].
    - destruct (seek_to _ _ _ _) as [n [err|]]; destruct Hstep as (H1 & _ & H2); [by apply Hsame|]. subst. clear Hsame. split; [done|]. intros Ha. split; [by apply Hs|done]. }
  destruct Hkey as [Hle Hk]. split; [lia|]. intros Ha. destruct (Hk Ha) as [H1 H2]. destruct (Hs Ha) as [_ H3]. split; [done|].
  assert (Hins : forall j st0, t' = <[j := st0]> t -> (forall pos e, st0 = Pos pos (Some e) -> (length d <= pos)%nat) ->
    forall i pos e, t' !! i = Some (Pos pos (Some e)) -> (length d <= pos)%nat).
  { intros j st0 -> Hst0 i' pos' e'. destruct (decide (j = i')) as [->|Hne]; [rewrite lookup_insert; intros [= ->]; by eapply Hst0|].
    rewrite lookup_insert_ne by done. apply H3. }
  destruct st as [|pos e]; [by eapply Hins|]. destruct f; try (by eapply Hins); destruct x; try (by eapply Hins).
  destruct Ht' as [_ Ht']. eapply Hins; [exact Ht'|]. intros pos' e' [= -> ->]. by eapply H3.
Qed.
Lemma rule_world c L t (h : heap (wst V)) w : rinv c L t h -> vR (v_v (h_w h)) (v_v w) -> rinv c L t (heap_w h w).
Proof.
  intros [H1 H2 H3 H4 H5 H6] Hv. constructor; try done.
  - destruct H1 as [W1 W2 W3 W4 W5 W6 W7]. constructor; try done. by destruct W1.
  - intros Hna. cbn. by apply Hv, H5.
Qed.
Lemma fR_refl : Reflexive vR. Proof. by intros v. Qed.
Lemma fR_trans : Transitive vR. Proof. intros v1 v2 v3. tauto. Qed.
Definition fam (c : nat) (h : heap (wst V)) : Prop := exists L t, rinv c L t h /\ sane L t.
Lemma ffam_step c h cmd h' o : fam c h -> go_cmd cmd -> ~ wraps r cmd -> exec E fuel h cmd = (h', o) -> feasible h' -> fam c h'.
Proof.
  intros (L & t & HI & Hsa) Hgc Hnw Hex Hfe.
  pose proof (rule_step E fuel k r lw d A Huc Hrd c L t h cmd h' o (go_wenv U Hgo) HI Hgc Hnw Hfe Hex) as H.
  destruct cmd as [i f| | | | | | |]; try (by exists L, t). destruct (t !! i); [|by exists L, t].
  destruct H as (x & L' & t' & _ & Hst & HI'). exists L', t'. split; [done|]. by eapply sane_step.
Qed.

(** Where a handle stands. *)
Definition stand_at (L0 c i : nat) (R : bytes) (h : heap (wst V)) : Prop :=
  exists L t pos e, rinv c L t h /\ sane L t /\ (L <= L0)%nat /\ t !! i = Some (Pos pos e) /\ R = drop (pos `min` L) (take L0 d).
Lemma fault_tape L0 c i : tape U fuel i all vR (stand_at L0 c i).
Proof.
  constructor.
  - intros R h (L & t & pos & e & HI & _ & _ & Hi & _). destruct (ri_at _ _ _ _ _ _ _ HI i pos e Hi) as [Hb _]. eexists. split; [exact Hb|]. generalize k. by intros [].
  - intros R h w (L & t & pos & e & HI & Hs & HL0 & Hi & HR) Hv. exists L, t, pos, e. split; [by apply rule_world|done].
  - intros R h p h' n q err (L & t & pos & e & HI & Hs & HL0 & Hi & HR) Hp Hex Hfe.
    pose proof (rule_step E fuel k r lw d A Huc Hrd c L t h (Call i (Read p)) h' _ (go_wenv U Hgo) HI Hp ltac:(by intros [|[? ?]]) Hfe Hex) as H. cbn in H. rewrite Hi in H.
    destruct H as (x & L' & t' & [= <-] & Hst & HI'). pose proof (sane_step _ _ _ _ _ _ _ Hst Hs) as Hs'.
    destruct Hst as (st & st' & Hst & Hh & Ht'). rewrite Hi in Hst. injection Hst as <-. cbn in Hh, Ht'. subst t'.
    assert (Hi' : <[i:=st']> t !! i = Some st') by apply lookup_insert.
    destruct e as [e|].
    + destruct Hh as (-> & -> & [= -> -> ->]). exists R. split; [pose proof (zlen_nonneg p); lia|]. split; [done|]. split; [by exists L, (<[i:=Pos pos (Some e)]> t), pos, (Some e)|].
      intros Ha _. destruct Hs as [HL Hs]. destruct (Hs Ha) as [H1 H2]. specialize (H2 _ _ _ Hi). rewrite HR. apply nil_length_inv. rewrite drop_length, take_length. lia.
    + destruct Hh as (n' & q' & err' & Hob & [= -> -> ->] & -> & ->). pose proof Hob as [(Hn & Hq & Hlq & _) _]. set (at_ := (pos `min` L)%nat) in *.
      destruct Hs as [HL Hs]. assert (Hlen : (n' <= length d - at_)%nat). { apply (f_equal length) in Hq. rewrite !take_length, drop_length in Hq. lia. }
      exists (drop (at_ + n') (take L0 d)). split; [unfold zlen; lia|]. rewrite Nat2Z.id. split; [|split].
      * rewrite HR, Hq. rewrite <- (take_drop n' (drop at_ (take L0 d))), drop_drop. f_equal. rewrite !take_drop_commute, take_take. do 2 f_equal. lia.
      * eexists _, _, _, _. split; [exact HI'|]. split; [exact Hs'|]. split; [destruct err'; lia|]. split; [exact Hi'|]. f_equal. destruct err'; lia.
      * intros Ha ->. destruct (Hs Ha) as [H1 _]. destruct (Hall Ha) as [_ Hx]. specialize (Hx _ _ _ _ _ _ H1 (Nat.le_min_r pos L) Hob ltac:(done)).
        apply nil_length_inv. rewrite drop_length, take_length. lia.
Qed.

Hypothesis Hkind : match k with KAt => cp_readerat (ev_caps (u_env U) r) = true | KSeek => cp_readerat (ev_caps (u_env U) r) = false /\ cp_seeker (ev_caps (u_env U) r) = true end.
Lemma fault_made v s1 i cs s2 os : live v -> wrapped_in U fuel r v s1 i cs s2 os -> announced U fuel s1 i (Z.of_nat D) ->
  (exists c, rinv c D {[ i := Pos 0 None ]} (s_h s1)) /\ wgood U (world s1).
Proof.
  intros Hl Hw Hann. apply (wrapped_new U fuel vR r (fun h => lw (h_w h)) (fun h => exists c, rinv c D {[ i := Pos 0 None ]} h) v s1 i cs s2 os Hcalm fR_refl fR_trans Hw).
  - intros h _ Hv. by rewrite Hv.
  - intros h cmd h' o Hlv Hu Hgc Hnw Hex Hfe. destruct (exec_log E _ _ _ _ _ Hex) as [evs Hlog]. eapply (live_exec2 E fuel r lw Huc h cmd h' o evs); try done.
    pose proof (un_log _ _ Hu) as Hx. rewrite Hlog, calls_on_app in Hx. apply app_eq_nil in Hx as [_ ->]. constructor.
  - intros h w Hlv Hv. by apply Hv.
  - intros h new Hu Hlv Hgn Hwn Hf1 Hex. exists (length (h_c h)).
    by apply (rule_new E fuel k r lw Huc D h new (s_h s1) i (go_wenv U Hgo) Hu Hgn Hwn Hf1 Hex (announced_heap U fuel s1 i _ Hann) Hkind).
Qed.
Lemma fault_later v s1 i cs s2 os : live v -> wrapped_in U fuel r v s1 i cs s2 os -> announced U fuel s1 i (Z.of_nat D) ->
  exists c, rinv c D {[ i := Pos 0 None ]} (s_h s1) /\ fam c (s_h s2).
Proof.
  intros Hl Hw Hann. destruct (fault_made v s1 i cs s2 os Hl Hw Hann) as [[c HI1] Hwi]. exists c. split; [done|].
  destruct (wrapped_inv U fuel vR r (fam c) v s1 i cs s2 os Hcalm fR_refl fR_trans Hw) as [HI _]; [|done|..|done].
  - exists D, {[ i := Pos 0 None ]}. split; [done|]. split; [done|]. intros Ha. split; [by apply Hall|]. intros j pos e Hj. by apply lookup_singleton_Some in Hj as [_ [=]].
  - intros h cmd h' o HI Hgc Hnw Hex Hfe. by eapply ffam_step.
  - intros h w (L & t & HI & Hs) Hv. exists L, t. split; [by apply rule_world|done].
Qed.
Theorem fault_rest v s1 i cs s2 os j n z : live v -> wrapped_in U fuel r v s1 i cs s2 os -> announced U fuel s1 i (Z.of_nat D) ->
  holds U fuel s2 j r -> tells U fuel s2 j n -> announced U fuel s2 j z -> taped U fuel all s2 j (take (Z.to_nat z) (drop (Z.to_nat n) d)).
Proof.
  intros Hl Hw Hann Hh Hn Hz. destruct (fault_later v s1 i cs s2 os Hl Hw Hann) as (c & _ & L & t & HI & Hs).
  pose proof (holds_refers U fuel r c _ s2 j (ri_own _ _ _ _ _ _ _ HI) Hh) as Ho. pose proof Ho as Ho'. unfold there in Ho. rewrite lookup_fmap in Ho. destruct (t !! j) as [[|pos e]|] eqn:Hj; try done.
  assert (Hna : ~ all_closed (there t)) by (intros Ha; by apply (Ha j)).
  destruct (ri_cm _ _ _ _ _ _ _ HI Hna) as [cnt Hc]. destruct (ri_at _ _ _ _ _ _ _ HI j pos e Hj) as [Hb Hpos]. pose proof (ri_max _ _ _ _ _ _ _ HI) as Hmax.
  assert (Hk : kloose k (s_h s2) j c e (Z.of_nat pos) r (Z.of_nat L) cnt) by (constructor; try done; lia).
  destruct Hn as (s' & Hn). apply texec_body in Hn as (h' & Hn & _). rewrite (l_Seek E fuel _ _ _ _ _ _ _ _ _ _ _ Hk) in Hn by (unfold in_i64, min_i64, max_i64; lia).
  unfold seek_to in Hn. cbn in Hn. replace (max_i64 <? Z.of_nat pos + 0) with false in Hn by lia. replace (Z.of_nat pos + 0 <? 0) with false in Hn by lia. injection Hn as _ <-.
  apply announced_heap in Hz. destruct (l_BytesRemaining E fuel _ _ _ _ _ _ _ _ _ Hk) as (z' & Hz' & Hz1 & Hz2). rewrite Hz in Hz'. injection Hz' as <-.
  replace (take (Z.to_nat z) (drop (Z.to_nat (Z.min (Z.of_nat pos + 0) (Z.of_nat L))) d)) with (drop (pos `min` L) (take L d)).
  - refine (tape_taped U fuel all vR (stand_at L c j) j s2 _ Hcalm fR_refl fR_trans (fault_tape L c j) _). by exists L, t, pos, e.
  - replace (Z.to_nat (Z.min (Z.of_nat pos + 0) (Z.of_nat L))) with (pos `min` L)%nat by lia. rewrite take_drop_commute. do 2 f_equal. lia.
Qed.
End Fault.

(** ** Sources that have what they announce *)
Section Whole.
Context {V : Type} (U : uenv V) (fuel : nat) (k : skind) (r : rid) (live : V -> Prop) (d : bytes) (early : bool) (D : nat).
Notation E := (wenv U).
Notation lw := (fun w : wst V => live (v_v w)).
Notation vR := (fun v v' : V => live v -> live v').
Hypothesis Hserve : match k with KAt => serves_at (u_env U) r live d early | KSeek => serves_seek (u_env U) r live d early end.
Hypothesis Hcalm : calm U vR.
Hypothesis Hgo : go_uenv U.
Hypothesis HD : (D <= length d)%nat.
Notation F := (first_bytes r early (Z.of_nat D) d).
Notation sinv := (src_inv k r lw D).
Lemma fam_len : length (fam_data F) = D.
Proof. cbn. rewrite Nat2Z.id. by apply take_length_le. Qed.
(** EOF has been seen at the end only. *)
Definition at_end (t : table) : Prop := forall i pos, t !! i = Some (At pos true) -> pos = D.
Lemma at_end_step t i f t' x : fam_step F t i f t' x -> (forall j pos e, t !! j = Some (At pos e) -> (pos <= D)%nat) -> at_end t -> at_end t'.
Proof.
  intros (st & st' & Hst & Hid & Ht') Hle Hend.
  assert (Hins : forall j st0, t' = <[j := st0]> t -> (forall pos, st0 = At pos true -> pos = D) -> at_end t').
  { intros j st0 -> H i' pos'. destruct (decide (j = i')) as [->|Hne]; [rewrite lookup_insert; intros [= ->]; by apply H|rewrite lookup_insert_ne by done; apply Hend]. }
  destruct st as [|pos e]; cbn in Hid.
  { destruct Hid as [-> _]. by eapply Hins. }
  assert (Hsame : st' = At pos e -> forall pos', st' = At pos' true -> pos' = D) by (intros -> pos' [= -> ->]; by eapply Hend).
  assert (Hfst : forall P : Prop, st' = At pos e /\ P -> (forall pos', st' = At pos' true -> pos' = D)) by (intros P [H _]; by apply Hsame).
  destruct f as [|p| |off wh|p off|w| |].
  - eapply Hins; [exact Ht'|]. by eapply Hfst.
  - destruct e; [eapply Hins; [exact Ht'|]; by eapply Hfst|]. destruct Hid as (n & err & (Hn & H1 & H2 & H3) & _ & ->). eapply Hins; [exact Ht'|]. intros pos' [= <- He].
    rewrite Nat2Z.id, take_length_le in * by done. specialize (Hle _ _ _ Hst). destruct err; [|done]. destruct (decide (length p < D - pos)%nat); [by discriminate H1|]. lia.
  - destruct Hid as [-> _]. by eapply Hins.
  - destruct (seek_to _ _ _ _) as [n [er|]]; destruct Hid as [_ ->]; (eapply Hins; [exact Ht'|]); [by apply Hsame|done].
  - eapply Hins; [exact Ht'|]. by eapply Hfst.
  - eapply Hins; [exact Ht'|]. by eapply Hfst.
  - destruct Hid as [-> [j ->]]. destruct Ht' as [_ Ht']. eapply Hins; [exact Ht'|]. by apply Hsame.
  - destruct Hid as [-> ->]. eapply Hins; [exact Ht'|]. by apply Hsame.
Qed.
Definition wfam (c : nat) (h : heap (wst V)) : Prop := exists t, sinv c t h /\ at_end t.
Lemma wfam_call c t h i st f h' o : sinv c t h -> at_end t -> t !! i = Some st -> go_cmd (Call i f) -> exec E fuel h (Call i f) = (h', o) -> feasible h' ->
  exists x t', o = ORet x /\ fam_step F t i f t' x /\ sinv c t' h' /\ at_end t'.
Proof.
  intros HI He Hi Hgc Hex Hfe.
  pose proof (src_step E fuel k r lw d early D (serve_w U k r live d early Hserve Hcalm) HD c t h (Call i f) h' o (go_wenv U Hgo) HI Hgc ltac:(by intros [|[? ?]]) Hfe Hex) as H. cbn in H. rewrite Hi in H.
  destruct H as (x & t' & -> & Hst & HI'). exists x, t'. split; [done|]. split; [done|]. split; [done|]. eapply at_end_step; [done| |done]. intros j pos e Hj. by apply (sr_at _ _ _ _ _ _ _ HI j pos e Hj).
Qed.
Lemma wfam_step c h cmd h' o : wfam c h -> go_cmd cmd -> ~ wraps r cmd -> exec E fuel h cmd = (h', o) -> feasible h' -> wfam c h'.
Proof.
  intros (t & HI & He) Hgc Hnw Hex Hfe.
  pose proof (src_step E fuel k r lw d early D (serve_w U k r live d early Hserve Hcalm) HD c t h cmd h' o (go_wenv U Hgo) HI Hgc Hnw Hfe Hex) as H.
  destruct cmd as [i f| | | | | | |]; try (by exists t). destruct (t !! i) as [st|] eqn:Hi; [|by exists t].
  destruct (wfam_call c t h i st f h' o HI He Hi Hgc Hex Hfe) as (x & t' & _ & _ & HI' & He'). by exists t'.
Qed.
Definition wstand (c i : nat) (R : bytes) (h : heap (wst V)) : Prop :=
  exists t pos e, sinv c t h /\ at_end t /\ t !! i = Some (At pos e) /\ R = drop pos (take D d).
Lemma whole_tape c i : tape U fuel i True vR (wstand c i).
Proof.
  constructor.
  - intros R h (t & pos & e & HI & _ & Hi & _). destruct (sr_at _ _ _ _ _ _ _ HI i pos e Hi) as [Hb _]. eexists. split; [exact Hb|]. generalize k. by intros [].
  - intros R h w (t & pos & e & HI & Hs & Hi & HR) Hv. exists t, pos, e. split; [|done]. by apply (src_world k r live D c t h w).
  - intros R h p h' n q err (t & pos & e & HI & He & Hi & HR) Hp Hex Hfe.
    destruct (wfam_call c t h i _ (Read p) h' _ HI He Hi Hp Hex Hfe) as (x & t' & [= <-] & Hst & HI' & He').
    destruct (sr_at _ _ _ _ _ _ _ HI i pos e Hi) as [_ Hpos].
    destruct Hst as (st & st' & Hst & Hh & Ht'). rewrite Hi in Hst. injection Hst as <-. cbn in Hh, Ht'. subst t'.
    assert (Hi' : <[i:=st']> t !! i = Some st') by apply lookup_insert.
    destruct e.
    + destruct Hh as (-> & [= -> -> ->]). exists R. split; [pose proof (zlen_nonneg p); lia|]. split; [done|]. split; [by eexists _, _, _|].
      intros _ _. rewrite (He _ _ Hi) in HR. rewrite HR. apply nil_length_inv. rewrite drop_length, take_length. lia.
    + destruct Hh as (n' & err' & Hra & [= -> -> ->] & ->). rewrite Nat2Z.id in *. destruct Hra as (Hn & H1 & H2 & H3). rewrite take_length_le in * by done.
      assert (Hlt : length (take n' (drop pos (take D d))) = n') by (rewrite take_length, drop_length, take_length_le by done; lia).
      exists (drop (pos + n') (take D d)). split; [unfold filled, zlen; rewrite app_length, Hlt; lia|]. split; [|split].
      * unfold filled. rewrite Nat2Z.id, take_app_alt by done. rewrite HR, <- (take_drop n' (drop pos (take D d))) at 1. by rewrite drop_drop.
      * by eexists _, _, _.
      * intros _ ->. destruct (decide (length p < D - pos)%nat); [by discriminate H1|]. apply nil_length_inv. rewrite drop_length, take_length. lia.
Qed.
Hypothesis Hkind : match k with KAt => cp_readerat (ev_caps (u_env U) r) = true | KSeek => cp_readerat (ev_caps (u_env U) r) = false /\ cp_seeker (ev_caps (u_env U) r) = true end.
Theorem whole_rest v s1 i cs s2 os j n z : live v -> wrapped_in U fuel r v s1 i cs s2 os -> announced U fuel s1 i (Z.of_nat D) ->
  holds U fuel s2 j r -> tells U fuel s2 j n -> announced U fuel s2 j z -> taped U fuel True s2 j (take (Z.to_nat z) (drop (Z.to_nat n) d)).
Proof.
  intros Hl Hw Hann Hh Hn Hz. destruct (src_made U fuel k r live d early D Hserve Hcalm Hgo HD v s1 i cs s2 os Hkind Hl Hw Hann) as [[c HI1] Hwi].
  destruct (wrapped_inv U fuel vR r (wfam c) v s1 i cs s2 os Hcalm (vR_refl live) (vR_trans live) Hw) as [(t & HI & He) _]; [|done|..].
  { eexists. split; [exact HI1|]. intros i' pos Hi'. by apply lookup_singleton_Some in Hi' as [_ [=]]. }
  { intros h cmd h' o HI Hgc Hnw Hex Hfe. by eapply wfam_step. }
  { intros h w (t & HI & He) Hv. exists t. split; [by apply (src_world k r live D c t h w)|done]. }
  pose proof (holds_refers U fuel r c _ s2 j (sr_own _ _ _ _ _ _ _ HI) Hh) as Ho. pose proof Ho as Ho'. apply open_lookup in Ho as (pos & e & Hj).
  assert (Hna : ~ all_closed (open_table t)) by (intros Ha; by apply (Ha j)).
  destruct (sr_cm _ _ _ _ _ _ _ HI Hna) as [cnt Hc]. destruct (sr_at _ _ _ _ _ _ _ HI j pos e Hj) as [Hb Hpos]. pose proof (sr_max _ _ _ _ _ _ _ HI) as Hmax.
  assert (Hk : kloose k (s_h s2) j c (if e then Some EOF else None) (Z.of_nat pos) r (Z.of_nat D) cnt) by (constructor; try done; lia).
  destruct Hn as (s' & Hn). apply texec_body in Hn as (h' & Hn & _). rewrite (l_Seek E fuel _ _ _ _ _ _ _ _ _ _ _ Hk) in Hn by (unfold in_i64, min_i64, max_i64; lia).
  unfold seek_to in Hn. cbn in Hn. replace (max_i64 <? Z.of_nat pos + 0) with false in Hn by lia. replace (Z.of_nat pos + 0 <? 0) with false in Hn by lia. injection Hn as _ <-.
  apply announced_heap in Hz. destruct (l_BytesRemaining E fuel _ _ _ _ _ _ _ _ _ Hk) as (z' & Hz' & Hz1 & Hz2). rewrite Hz in Hz'. injection Hz' as <-.
  replace (take (Z.to_nat z) (drop (Z.to_nat (Z.min (Z.of_nat pos + 0) (Z.of_nat D))) d)) with (drop pos (take D d)).
  - refine (tape_taped U fuel True vR (wstand c j) j s2 _ Hcalm (vR_refl live) (vR_trans live) (whole_tape c j) _). by exists t, pos, e.
  - replace (Z.to_nat (Z.min (Z.of_nat pos + 0) (Z.of_nat D))) with pos by lia. rewrite take_drop_commute. do 2 f_equal. lia.
Qed.
End Whole.

(** ** Streams, whatever they end with *)
Section Flowing.
Context {V : Type} (U : uenv V) (fuel : nat) (r : rid) (gp : V -> nat) (d : bytes) (e0 : error) (D : Z).
Notation E := (wenv U).
Notation gw := (fun w : wst V => gp (v_v w)).
Notation vR := (fun v v' : V => gp v' = gp v).
Hypothesis Hst : streams (u_env U) r gp d e0.
Hypothesis Hcalm : calm U vR.
Hypothesis Hgo : go_uenv U.
Notation sd := (streamed r gw d e0).
Lemma fl_world (h : heap (wst V)) w : sd h -> vR (v_v (h_w h)) (v_v w) -> sd (heap_w h w).
Proof. intros H Hv. unfold streamed in *. cbn. by rewrite Hv. Qed.
Lemma flow_facts c t h : stream_inv r c D t h -> sd h -> let L := calls_on r (h_log h) in
  (exists x, cut D d = stream L ++ x) /\ Forall (fun ev => ~ lies ev) L /\ (forall e', terminal D L = Some e' -> stream L = cut D d).
Proof.
  intros [_ _ _ _ Hpol Hle] Hsd L.
  assert (Hmod : Forall modest (calls_on r (h_log h))).
  { apply Forall_forall. intros ev Hin. apply elem_of_list_split in Hin as (X1 & X2 & Hin). destruct (Hpol X1 ev X2 Hin) as [_ Hev]. by destruct ev. }
  destruct (Hsd Hmod) as (S1 & S2 & S3 & S4). fold L in S1, S3, S4, Hle.
  assert (Hlen : length (stream L) = gw (h_w h)) by (rewrite S1, take_length; lia).
  split; [|split; [done|]].
  - unfold cut. rewrite S1. destruct (0 <=? D) eqn:HD0.
    + assert (HD0' : 0 <= D) by lia. specialize (Hle HD0'). unfold zlen in Hle. assert (Hg : (gw (h_w h) <= Z.to_nat D)%nat) by lia.
      exists (drop (gw (h_w h)) (take (Z.to_nat D) d)). rewrite <- (take_drop (gw (h_w h)) (take (Z.to_nat D) d)) at 1. f_equal. rewrite take_take. f_equal. lia.
    + exists (drop (gw (h_w h)) d). by rewrite take_drop.
  - intros e' Hte. unfold terminal in Hte. unfold cut. destruct (first_error L) as [e1|] eqn:Hfe.
    + injection Hte as <-. destruct (S4 _ eq_refl) as [-> Hg]. rewrite S1. rewrite Hg, take_ge by lia.
      assert (HDd : 0 <= D -> zlen d <= D) by (intros HD0; specialize (Hle HD0); unfold zlen in *; lia).
      destruct (0 <=? D) eqn:HD0; [|done]. rewrite take_ge; [done|]. unfold zlen in HDd. lia.
    + destruct (_ && _) eqn:Hx; [|done]. injection Hte as <-. replace (0 <=? D) with true by lia. unfold zlen in *.
      rewrite S1. f_equal. lia.
Qed.
Lemma exec_flow h cmd h' o : exec E fuel h cmd = (h', o) -> sd h -> sd h'.
Proof. unfold exec. apply run_streamed. by apply streams_w. Qed.
Definition sstand (c i : nat) (R : bytes) (h : heap (wst V)) : Prop :=
  exists t pos e, stream_inv r c D t h /\ sd h /\ t !! i = Some (At pos e) /\ R = drop pos (cut D d).
Lemma stream_tape c i : tape U fuel i True vR (sstand c i).
Proof.
  constructor.
  - intros R h (t & pos & e & HI & _ & Hi & _). eexists. split; [exact (si_at _ _ _ _ _ HI _ _ _ Hi)|done].
  - intros R h w (t & pos & e & HI & Hs & Hi & HR) Hv. exists t, pos, e. split; [by apply stream_world|]. split; [by apply fl_world|done].
  - intros R h p h' n q err (t & pos & e & HI & Hs & Ht & HR) Hp Hex Hf.
    destruct (stream_step E fuel r c D t h (Call i (Read p)) h' _ (go_wenv U Hgo) HI Hp ltac:(by intros [|[? ?]]) Hf Hex) as [HI' Hcall].
    destruct (Hcall i (Read p) pos e eq_refl Ht) as (evs & HL & Hcm & Ha). pose proof (exec_flow _ _ _ _ Hex Hs) as Hs'.
    destruct (flow_facts _ _ _ HI' Hs') as ((x & Hx) & Hnl & Hte). set (L := calls_on r (h_log h')) in *.
    cbn [stream_answer] in Ha. destruct Ha as (err' & [= -> -> ->] & Herr). fold L in Herr, HI'. fold L.
    destruct (inv_ended r c D t h i pos e HI Ht) as [Hpos Hend].
    assert (HposL : (pos <= length (stream L))%nat) by (rewrite HL, stream_app, app_length; lia).
    set (n := Nat.min (length p) (length (stream L) - pos)) in *.
    assert (Hlen : length (take n (drop pos (stream L))) = n) by (rewrite take_length, drop_length; lia).
    assert (Hdrop : drop pos (cut D d) = drop pos (stream L) ++ x) by (rewrite Hx; by apply drop_app_le).
    exists (drop (pos + n) (cut D d)). split; [unfold filled, zlen; rewrite app_length, Hlen; lia|]. split; [|split].
    + unfold filled. rewrite Nat2Z.id, take_app_alt by done. rewrite HR, <- drop_drop, Hdrop.
      rewrite <- (take_drop n (drop pos (stream L) ++ x)) at 1. f_equal. apply take_app_le. rewrite drop_length. lia.
    + eexists _, (pos + n)%nat, _. split; [exact HI'|]. split; [done|]. split; [|done]. cbn [follow]. rewrite Ht, lookup_insert. by rewrite Nat2Z.id.
    + intros _ ->. destruct (e || (length (stream L) <? pos + length p)%nat) eqn:Hc; [|done]. destruct Herr as [_ Her]. pose proof (Hte _ (eq_sym Her)) as Hcut.
      assert (Hn : n = (length (stream L) - pos)%nat).
      { destruct e; [|cbn [orb] in Hc; lia]. destruct (Hend eq_refl) as [Ht' Hpe].
        assert (Hsame : stream L = stream (calls_on r (h_log h))).
        { unfold calls_made in Hcm. rewrite HL, Hcm, app_nil_r. done. }
        apply (f_equal length) in Hsame. unfold n. lia. }
      apply nil_length_inv. rewrite drop_length, <- Hcut. lia.
Qed.
Theorem flow_rest v s1 i cs s2 os j b : gp v = 0%nat -> wrapped_in U fuel r v s1 i cs s2 os -> announced U fuel s1 i D ->
  (cp_readerat (ev_caps (u_env U) r) || cp_seeker (ev_caps (u_env U) r)) && (0 <=? D) = false -> holds U fuel s2 j r -> h_b (s_h s2) !! j = Some (BBuffered b) ->
  taped U fuel True s2 j (drop (Z.to_nat (bb_offset b)) (cut D d)).
Proof.
  intros H0 Hw Hann Hkind Hh Hb.
  destruct (wrapped_new U fuel vR r sd (fun h => exists c, stream_inv r c D {[ i := At 0 false ]} h /\ sd h) v s1 i cs s2 os Hcalm (gR_refl gp) (gR_trans gp) Hw) as [(c & HI1 & Hs1) Hwi].
  { intros h Hl Hv. unfold streamed. rewrite Hl, Hv, H0. cbn. intros _. rewrite take_0. split; [done|]. split; [lia|]. split; [constructor|done]. }
  { intros h cmd h' o Hs _ _ _ Hex _. by eapply exec_flow. }
  { intros h w. apply fl_world. }
  { intros h new Hu Hs Hgn Hwn Hf1 Hex. exists (length (h_c h)). split; [|by eapply exec_flow].
    apply (stream_new E fuel r h new (s_h s1) i D (go_wenv U Hgo) Hu Hgn Hwn Hf1 Hex). split; [by apply announced_heap|done]. }
  destruct (wrapped_inv U fuel vR r (fun h => exists t, stream_inv r c D t h /\ sd h) v s1 i cs s2 os Hcalm (gR_refl gp) (gR_trans gp) Hw) as [(t & HI & Hs) _]; [eauto|done|..].
  { intros h cmd h' o (t & HI & Hs) Hgc Hnw Hex Hfe. destruct (stream_step E fuel r c D t h cmd h' o (go_wenv U Hgo) HI Hgc Hnw Hfe Hex) as [HI' _].
    eexists. split; [exact HI'|]. by eapply exec_flow. }
  { intros h w (t & HI & Hs) Hv. exists t. split; [by apply stream_world|by apply fl_world]. }
  pose proof (holds_refers U fuel r c _ s2 j (si_own _ _ _ _ _ HI) Hh) as Ho. apply open_lookup in Ho as (pos & e & Hj).
  pose proof (si_at _ _ _ _ _ HI _ _ _ Hj) as Hb'. rewrite Hb in Hb'. injection Hb' as ->. cbn. rewrite Nat2Z.id.
  refine (tape_taped U fuel True vR (sstand c j) j s2 _ Hcalm (gR_refl gp) (gR_trans gp) (stream_tape c j) _). by exists t, pos, e.
Qed.
End Flowing.

(** ** The theorems *)
Section Main.
Context {V : Type} (U : uenv V) (fuel : nat).
(** [Q] is what such a Body gives. *)
Context (Q : Prop -> state V -> nat -> bytes -> Prop).
Hypothesis HQ : forall all s j R, taped U fuel all s j R -> Q all s j R.
Notation E := (wenv U).
Notation lw live := (fun w : wst V => live (v_v w)).
Theorem any_readerat r (live : V -> Prop) d early : serves_at (u_env U) r live d early -> cp_readerat (ev_caps (u_env U) r) = true ->
  calm U (fun v v' => live v -> live v') -> forall v s1 i cs s2 os (D : nat) j n z, live v -> wrapped_in U fuel r v s1 i cs s2 os -> announced U fuel s1 i (Z.of_nat D) -> (D <= length d)%nat ->
  holds U fuel s2 j r -> tells U fuel s2 j n -> announced U fuel s2 j z -> Q True s2 j (take (Z.to_nat z) (drop (Z.to_nat n) d)).
Proof. intros Hs Hk Hc v s1 i cs s2 os D j n z Hl Hw Ha HD. intros. apply HQ. by eapply (whole_rest U fuel KAt r live d early D Hs Hc (proj1 Hw) HD Hk). Qed.
Theorem any_seeker r (live : V -> Prop) d early : serves_seek (u_env U) r live d early -> cp_readerat (ev_caps (u_env U) r) = false -> cp_seeker (ev_caps (u_env U) r) = true ->
  calm U (fun v v' => live v -> live v') -> forall v s1 i cs s2 os (D : nat) j n z, live v -> wrapped_in U fuel r v s1 i cs s2 os -> announced U fuel s1 i (Z.of_nat D) -> (D <= length d)%nat ->
  holds U fuel s2 j r -> tells U fuel s2 j n -> announced U fuel s2 j z -> Q True s2 j (take (Z.to_nat z) (drop (Z.to_nat n) d)).
Proof. intros Hs Hk1 Hk2 Hc v s1 i cs s2 os D j n z Hl Hw Ha HD. intros. apply HQ. by eapply (whole_rest U fuel KSeek r live d early D Hs Hc (proj1 Hw) HD (conj Hk1 Hk2)). Qed.
Theorem any_stream r (gp : V -> nat) d e : streams (u_env U) r gp d e -> calm U (fun v v' => gp v' = gp v) ->
  forall v s1 i cs s2 os (D : Z) j b, gp v = 0%nat -> wrapped_in U fuel r v s1 i cs s2 os -> announced U fuel s1 i D ->
  (cp_readerat (ev_caps (u_env U) r) || cp_seeker (ev_caps (u_env U) r)) && (0 <=? D) = false -> holds U fuel s2 j r -> h_b (s_h s2) !! j = Some (BBuffered b) ->
  Q True s2 j (drop (Z.to_nat (bb_offset b)) (cut D d)).
Proof. intros Hs Hc v s1 i cs s2 os D j b H0 Hw. intros. apply HQ. by eapply (flow_rest U fuel r gp d e D Hs Hc (proj1 Hw)). Qed.
Theorem any_readerat_faults r (live : V -> Prop) d : truthful_at (u_env U) r live d -> cp_readerat (ev_caps (u_env U) r) = true ->
  calm U (fun v v' => live v -> live v') -> forall v s1 i cs s2 os (D : nat) j n z, live v -> wrapped_in U fuel r v s1 i cs s2 os -> announced U fuel s1 i (Z.of_nat D) ->
  holds U fuel s2 j r -> tells U fuel s2 j n -> announced U fuel s2 j z -> Q False s2 j (take (Z.to_nat z) (drop (Z.to_nat n) d)).
Proof.
  intros Hs Hk Hc v s1 i cs s2 os D j n z Hl Hw Ha. pose proof (truthful_at_w U r live d Hc Hs) as Hs'.
  intros. apply HQ. eapply (fault_rest U fuel KAt r live d D (fun _ _ _ _ => True) False (proj1 Hs')); try done; [|exact (proj1 Hw)].
  intros h off px Hlv Ho. by apply (krd_true E KAt r (lw live)).
Qed.
Theorem any_seeker_faults r (live : V -> Prop) d : truthful_seek (u_env U) r live d -> cp_readerat (ev_caps (u_env U) r) = false -> cp_seeker (ev_caps (u_env U) r) = true ->
  calm U (fun v v' => live v -> live v') -> forall v s1 i cs s2 os (D : nat) j n z, live v -> wrapped_in U fuel r v s1 i cs s2 os -> announced U fuel s1 i (Z.of_nat D) ->
  holds U fuel s2 j r -> tells U fuel s2 j n -> announced U fuel s2 j z -> Q False s2 j (take (Z.to_nat z) (drop (Z.to_nat n) d)).
Proof.
  intros Hs Hk1 Hk2 Hc v s1 i cs s2 os D j n z Hl Hw Ha. pose proof (truthful_seek_w U r live d Hc Hs) as Hs'.
  intros. apply HQ. eapply (fault_rest U fuel KSeek r live d D (fun _ _ _ _ => True) False (proj1 Hs')); try done; [|exact (proj1 Hw)].
  intros h off px Hlv Ho. by apply (krd_true E KSeek r (lw live)).
Qed.
Theorem any_readerat_short r (live : V -> Prop) d early : ends_at (u_env U) r live d early -> cp_readerat (ev_caps (u_env U) r) = true ->
  calm U (fun v v' => live v -> live v') -> forall v s1 i cs s2 os (D : nat) j n z, live v -> wrapped_in U fuel r v s1 i cs s2 os -> announced U fuel s1 i (Z.of_nat D) -> (length d <= D)%nat ->
  holds U fuel s2 j r -> tells U fuel s2 j n -> announced U fuel s2 j z -> Q True s2 j (take (Z.to_nat z) (drop (Z.to_nat n) d)).
Proof.
  intros Hs Hk Hc v s1 i cs s2 os D j n z Hl Hw Ha HD. pose proof (ends_at_w U r live d early Hc Hs) as Hs'.
  intros. apply HQ. eapply (fault_rest U fuel KAt r live d D (ends_rule d early) True (proj1 (proj1 Hs'))); try done; [| |exact (proj1 Hw)].
  - intros h off px Hlv Ho. by apply (krd_ends E KAt r (lw live)).
  - intros _. split; [done|]. intros L pos p n' q err HL Hp Hob. by apply (ends_all d early L pos p n' q err).
Qed.
Theorem any_seeker_short r (live : V -> Prop) d early : ends_seek (u_env U) r live d early -> cp_readerat (ev_caps (u_env U) r) = false -> cp_seeker (ev_caps (u_env U) r) = true ->
  calm U (fun v v' => live v -> live v') -> forall v s1 i cs s2 os (D : nat) j n z, live v -> wrapped_in U fuel r v s1 i cs s2 os -> announced U fuel s1 i (Z.of_nat D) -> (length d <= D)%nat ->
  holds U fuel s2 j r -> tells U fuel s2 j n -> announced U fuel s2 j z -> Q True s2 j (take (Z.to_nat z) (drop (Z.to_nat n) d)).
Proof.
  intros Hs Hk1 Hk2 Hc v s1 i cs s2 os D j n z Hl Hw Ha HD. pose proof (ends_seek_w U r live d early Hc Hs) as Hs'.
  intros. apply HQ. eapply (fault_rest U fuel KSeek r live d D (ends_rule d early) True (proj1 (proj1 Hs'))); try done; [| |exact (proj1 Hw)].
  - intros h off px Hlv Ho. by apply (krd_ends E KSeek r (lw live)).
  - intros _. split; [done|]. intros L pos p n' q err HL Hp Hob. by apply (ends_all d early L pos p n' q err).
Qed.
End Main.

Section Safe.
Context {V : Type} (U : uenv V) (fuel : nat).
Definition safe_readerat := any_readerat U fuel (safely U fuel True) (taped_safely U fuel).
Definition safe_seeker := any_seeker U fuel (safely U fuel True) (taped_safely U fuel).
Definition safe_stream := any_stream U fuel (safely U fuel True) (taped_safely U fuel).
Definition safe_readerat_faults := any_readerat_faults U fuel (safely U fuel True) (taped_safely U fuel).
Definition safe_seeker_faults := any_seeker_faults U fuel (safely U fuel True) (taped_safely U fuel).
Definition safe_readerat_short := any_readerat_short U fuel (safely U fuel True) (taped_safely U fuel).
Definition safe_seeker_short := any_seeker_short U fuel (safely U fuel True) (taped_safely U fuel).
End Safe.
