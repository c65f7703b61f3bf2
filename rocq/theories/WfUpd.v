(** * Re-establishing the heap invariant after an update (proof infrastructure) *)
From stdpp Require Import gmap.
From Coq Require Import ZifyBool.
From Verif Require Export Wf.

Lemma live_buf_ext bs bs' c x r m :
  refs bs' c = refs bs c -> (forall i, i ∈ refs bs c -> boff bs' i = boff bs i) ->
  live_buf bs c x r m -> live_buf bs' c x r m.
Proof.
  intros Hr Ho H. destruct H as [L1 L2 lb_refs0 L3 L4 lb_cnt0 L5 L6 L7]. assert (Hin : forall i, i ∈ m -> boff bs' i = boff bs i).
  { intros i Hi. apply Ho. rewrite <- lb_refs0. done. }
  constructor; try done.
  - by rewrite Hr.
  - intros i Hi. rewrite Hin by done. auto.
  - rewrite lb_cnt0. symmetry. by apply count_at_ext.
Qed.

Lemma wf_common_ext bs bs' c x :
  refs bs' c = refs bs c -> (forall i, i ∈ refs bs c -> boff bs' i = boff bs i) ->
  wf_common bs c x -> wf_common bs' c x.
Proof.
  intros Hr Ho. destruct x as [x|x|x]; cbn [wf_common]; rewrite Hr; try done.
  intros (H1 & H2). split; [done|]. intros Hne. destruct (H2 Hne) as (r & m & Hl). exists r, m. by eapply live_buf_ext.
Qed.

Lemma wf_body_ext cs cs' b :
  (forall c, body_common b = Some c -> cs' !! c = cs !! c) -> wf_body cs b -> wf_body cs' b.
Proof.
  intros He. destruct b as [|b|b|b|b|b]; cbn [wf_body body_common] in *; try done.
  - destruct (sb_closed b); [done|]. intros (H1 & c & x & Hc & Hx). split; [done|]. exists c, x. rewrite He; done.
  - destruct (rb_closed b); [done|]. intros (H1 & c & x & Hc & Hx). split; [done|]. exists c, x. rewrite He; done.
  - destruct (bb_closed b); [done|]. intros (H1 & c & x & Hc & Hx & Hx2). split; [done|]. exists c, x. rewrite He; done.
Qed.

Lemma boff_insert_ne bs i j b : i <> j -> boff (<[i := b]> bs) j = boff bs j.
Proof. intros H. unfold boff. rewrite list_lookup_insert_ne by done. done. Qed.
Lemma boff_insert bs i b x : bs !! i = Some x -> boff (<[i := BBuffered b]> bs) i = bb_offset b.
Proof. intros H. unfold boff. rewrite list_lookup_insert by (by eapply lookup_lt_Some). done. Qed.
Lemma boff_app bs i b x : bs !! i = Some x -> boff (bs ++ [b]) i = boff bs i.
Proof. intros H. unfold boff. rewrite lookup_app_l by (by eapply lookup_lt_Some). done. Qed.
Lemma refs_boff_app bs c b i : i ∈ refs bs c -> boff (bs ++ [b]) i = boff bs i.
Proof. intros H. apply elem_refs in H as (x & Hx & _). by eapply boff_app. Qed.

Section Upd.
Context {W : Type}.
Implicit Types h : heap W.

(** A call on handle [i] that updates its own object and the shared one. *)
Lemma wf_upd h h' i b b' c x x' :
  wf h -> h_b h !! i = Some b -> h_c h !! c = Some x -> body_common b = Some c ->
  (body_common b' = Some c \/ body_common b' = None) ->
  h_b h' = <[i := b']> (h_b h) -> h_c h' = <[c := x']> (h_c h) ->
  wf_body (h_c h') b' -> wf_common (h_b h') c x' ->
  (forall j bj, j <> i -> h_b h !! j = Some bj -> body_common bj = Some c -> wf_body (h_c h') bj) ->
  (forall y, x' = CBuffered y -> buf_end y <= total_read (h_log h')) ->
  total_read (h_log h) <= total_read (h_log h') ->
  wf h'.
Proof.
  intros [H0 Hb Hc Ht] Hi Hx Hbc Hbc' Eb Ec Wb Wc Woth Htot Hmono.
  assert (Hlen : (i < length (h_b h))%nat) by (by eapply lookup_lt_Some).
  assert (Hlenc : (c < length (h_c h))%nat) by (by eapply lookup_lt_Some).
  assert (Hi0 : i <> 0%nat). { intros ->. rewrite H0 in Hi. injection Hi as <-. done. }
  constructor.
  - rewrite Eb, list_lookup_insert_ne by done. done.
  - intros j bj Hj. rewrite Eb in Hj. destruct (decide (i = j)) as [<-|Hne].
    { rewrite list_lookup_insert in Hj by done. injection Hj as <-. done. }
    rewrite list_lookup_insert_ne in Hj by done.
    destruct (decide (body_common bj = Some c)) as [Hj1|Hj1]; [by eapply Woth|].
    eapply wf_body_ext; [|by eapply Hb]. intros c' Hc'. rewrite Ec, list_lookup_insert_ne by congruence. done.
  - intros c' y Hy. rewrite Ec in Hy. destruct (decide (c = c')) as [<-|Hne].
    { rewrite list_lookup_insert in Hy by done. injection Hy as <-. done. }
    rewrite list_lookup_insert_ne in Hy by done. rewrite Eb.
    eapply wf_common_ext; [..|by eapply Hc].
    + eapply refs_store_other; [done|congruence|]. destruct Hbc' as [->| ->]; congruence.
    + intros j Hj. apply elem_refs in Hj as (bj & Hbj & Hcj). apply boff_insert_ne. congruence.
  - intros c' y Hy. rewrite Ec in Hy. destruct (decide (c = c')) as [<-|Hne].
    { rewrite list_lookup_insert in Hy by done. injection Hy as ->. by apply Htot. }
    rewrite list_lookup_insert_ne in Hy by done. specialize (Ht _ _ Hy). lia.
Qed.

(** Copy: a new Body sharing [c]. *)
Lemma wf_copy h h' b' c x x' :
  wf h -> h_c h !! c = Some x -> body_common b' = Some c ->
  h_b h' = h_b h ++ [b'] -> h_c h' = <[c := x']> (h_c h) ->
  wf_body (h_c h') b' -> wf_common (h_b h') c x' ->
  (forall j bj, h_b h !! j = Some bj -> body_common bj = Some c -> wf_body (h_c h') bj) ->
  (forall y, x' = CBuffered y -> buf_end y <= total_read (h_log h')) ->
  total_read (h_log h) <= total_read (h_log h') ->
  wf h'.
Proof.
  intros [H0 Hb Hc Ht] Hx Hbc Eb Ec Wb Wc Woth Htot Hmono.
  assert (Hlenc : (c < length (h_c h))%nat) by (by eapply lookup_lt_Some).
  constructor.
  - rewrite Eb. apply lookup_app_l_Some. done.
  - intros j bj Hj. rewrite Eb in Hj. apply lookup_app_Some in Hj as [Hj|[Hl Hj]].
    2:{ apply list_lookup_singleton_Some in Hj as [_ <-]. done. }
    destruct (decide (body_common bj = Some c)) as [Hj1|Hj1]; [by eapply Woth|].
    eapply wf_body_ext; [|by eapply Hb]. intros c' Hc'. rewrite Ec, list_lookup_insert_ne by congruence. done.
  - intros c' y Hy. rewrite Ec in Hy. destruct (decide (c = c')) as [<-|Hne].
    { rewrite list_lookup_insert in Hy by done. injection Hy as <-. done. }
    rewrite list_lookup_insert_ne in Hy by done. rewrite Eb.
    eapply wf_common_ext; [..|by eapply Hc].
    + rewrite refs_new, decide_False by congruence. apply app_nil_r.
    + intros j Hj. eapply refs_boff_app; done.
  - intros c' y Hy. rewrite Ec in Hy. destruct (decide (c = c')) as [<-|Hne].
    { rewrite list_lookup_insert in Hy by done. injection Hy as ->. by apply Htot. }
    rewrite list_lookup_insert_ne in Hy by done. specialize (Ht _ _ Hy). lia.
Qed.

(** A call that changes nothing but the outside world. *)
Lemma wf_same h h' :
  wf h -> h_b h' = h_b h -> h_c h' = h_c h -> total_read (h_log h) <= total_read (h_log h') -> wf h'.
Proof.
  intros [H0 Hb Hc Ht] Eb Ec Hmono. constructor; rewrite ?Eb, ?Ec; try done.
  intros c y Hy. specialize (Ht _ _ Hy). lia.
Qed.

(** A store to a Body that shares nothing. *)
Lemma wf_store h h' i b b' :
  wf h -> h_b h !! i = Some b -> b <> BClosed -> body_common b = None -> body_common b' = None ->
  h_b h' = <[i := b']> (h_b h) -> h_c h' = h_c h -> wf_body (h_c h) b' ->
  total_read (h_log h) <= total_read (h_log h') -> wf h'.
Proof.
  intros [H0 Hb Hc Ht] Hi Hcl Hbc Hbc' Eb Ec Wb Hmono.
  assert (Hlen : (i < length (h_b h))%nat) by (by eapply lookup_lt_Some).
  constructor; rewrite ?Ec.
  - rewrite Eb, list_lookup_insert_ne by congruence. done.
  - intros j bj Hj. rewrite Eb in Hj. destruct (decide (i = j)) as [<-|Hne].
    { rewrite list_lookup_insert in Hj by done. injection Hj as <-. done. }
    rewrite list_lookup_insert_ne in Hj by done. eauto.
  - intros c y Hy. rewrite Eb. eapply wf_common_ext; [..|by eapply Hc].
    + eapply refs_store_other; [done|congruence..].
    + intros j Hj. apply elem_refs in Hj as (bj & Hbj & Hcj). apply boff_insert_ne. congruence.
  - intros c y Hy. specialize (Ht _ _ Hy). lia.
Qed.

(** A new Body that shares nothing. *)
Lemma wf_newb h h' b' :
  wf h -> body_common b' = None -> h_b h' = h_b h ++ [b'] -> h_c h' = h_c h -> wf_body (h_c h) b' ->
  total_read (h_log h) <= total_read (h_log h') -> wf h'.
Proof.
  intros [H0 Hb Hc Ht] Hbc Eb Ec Wb Hmono. constructor; rewrite ?Ec.
  - rewrite Eb. apply lookup_app_l_Some. done.
  - intros j bj Hj. rewrite Eb in Hj. apply lookup_app_Some in Hj as [Hj|[Hl Hj]]; [eauto|].
    apply list_lookup_singleton_Some in Hj as [_ <-]. done.
  - intros c y Hy. rewrite Eb. eapply wf_common_ext; [..|by eapply Hc].
    + rewrite refs_new, decide_False by congruence. apply app_nil_r.
    + intros j Hj. eapply refs_boff_app; done.
  - intros c y Hy. specialize (Ht _ _ Hy). lia.
Qed.

Lemma refs_dangling h c : wf h -> (length (h_c h) <= c)%nat -> refs (h_b h) c = [].
Proof.
  intros Hwf Hl. destruct (refs (h_b h) c) as [|i l] eqn:Hr; [done|].
  assert (i ∈ refs (h_b h) c) as Hi by (rewrite Hr; left).
  apply elem_refs in Hi as (b & Hb & Hbc). pose proof (wf_b _ Hwf _ _ Hb) as Hwb.
  destruct b as [|b|b|b|b|b]; cbn in Hbc, Hwb; try done.
  - destruct (sb_closed b); [congruence|]. destruct Hwb as (_ & c' & x & Hc' & Hx).
    apply lookup_lt_Some in Hx. assert (c = c') by congruence. lia.
  - destruct (rb_closed b); [congruence|]. destruct Hwb as (_ & c' & x & Hc' & Hx).
    apply lookup_lt_Some in Hx. assert (c = c') by congruence. lia.
  - destruct (bb_closed b); [congruence|]. destruct Hwb as (_ & c' & x & Hc' & Hx & _).
    apply lookup_lt_Some in Hx. assert (c = c') by congruence. lia.
Qed.

(** A new Body with a new shared object. *)
Lemma wf_newbc h h' b' x' :
  wf h -> body_common b' = Some (length (h_c h)) ->
  h_b h' = h_b h ++ [b'] -> h_c h' = h_c h ++ [x'] ->
  wf_body (h_c h') b' -> wf_common (h_b h') (length (h_c h)) x' ->
  (forall y, x' = CBuffered y -> buf_end y <= total_read (h_log h')) ->
  total_read (h_log h) <= total_read (h_log h') -> wf h'.
Proof.
  intros Hwf Hbc Eb Ec Wb Wc Htot Hmono. pose proof Hwf as [H0 Hb Hc Ht]. constructor.
  - rewrite Eb. apply lookup_app_l_Some. done.
  - intros j bj Hj. rewrite Eb in Hj. apply lookup_app_Some in Hj as [Hj|[Hl Hj]].
    2:{ apply list_lookup_singleton_Some in Hj as [_ <-]. done. }
    eapply wf_body_ext; [|by eapply Hb]. intros c Hcj. rewrite Ec.
    apply lookup_app_l. destruct (decide (length (h_c h) <= c)%nat) as [Hle|]; [|lia].
    pose proof (refs_dangling h c Hwf Hle) as Hr.
    pose proof (refs_pos _ _ _ _ Hj Hcj) as Hp. exfalso. rewrite Hr in Hp. unfold zlen in Hp. cbn in Hp. lia.
  - intros c y Hy. rewrite Ec in Hy. apply lookup_app_Some in Hy as [Hy|[Hl Hy]].
    + rewrite Eb. pose proof (lookup_lt_Some _ _ _ Hy). eapply wf_common_ext; [..|by eapply Hc].
      * rewrite refs_new, decide_False; [apply app_nil_r|]. rewrite Hbc. intros [= ?]. lia.
      * intros j Hj. eapply refs_boff_app; done.
    + apply list_lookup_singleton_Some in Hy as [Hz <-]. replace c with (length (h_c h)) by lia. done.
  - intros c y Hy. rewrite Ec in Hy. apply lookup_app_Some in Hy as [Hy|[Hl Hy]].
    + specialize (Ht _ _ Hy). lia.
    + apply list_lookup_singleton_Some in Hy as [Hz Hy]. by apply Htot.
Qed.

Lemma wf_initial (w : W) : wf (initial w).
Proof.
  constructor; cbn; try done.
  intros [|i] b Hb; cbn in Hb; [|done]. injection Hb as <-. done.
Qed.

End Upd.
