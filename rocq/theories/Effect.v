(** * What a call can change and whom it can call (proofs) *)
From stdpp Require Import gmap.
From Coq Require Import ZifyBool.
From Verif Require Export Preserve.

Definition common_reader (x : cobj) : option rid :=
  match x with CSeeker x => sc_s x | CReaderAt x => rc_r x | CBuffered x => bc_r x end.
Definition reader_at {W} (h : heap W) (c : nat) : option rid :=
  match h_c h !! c with Some x => common_reader x | None => None end.

Section Effect.
Context {W : Type} (E : env W).
Implicit Types h : heap W.

Inductive effect h (i : nat) (b : bobj) : op -> heap W -> out res -> list event -> Prop :=
| eff_keep f h' o evs b' :
    h_b h' = <[i := b']> (h_b h) -> body_common b' = body_common b ->
    length (h_c h') = length (h_c h) ->
    (forall c, body_common b <> Some c -> h_c h' !! c = h_c h !! c) ->
    (forall c, reader_at h' c = reader_at h c) ->
    (f = Copy \/ f = Close -> body_common b = None) ->
    Forall (fun ev => not_close ev /\
      match ev_reader ev with Some r => exists c, body_common b = Some c /\ reader_at h c = Some r | None => True end) evs ->
    effect h i b f h' o evs
| eff_mcopy h' b' :
    body_common b = None -> h_b h' = h_b h ++ [b'] -> body_common b' = None -> h_c h' = h_c h ->
    effect h i b Copy h' (ORet (RBody (length (h_b h)) None)) []
| eff_copy c h' b' :
    body_common b = Some c -> h_b h' = h_b h ++ [b'] -> body_common b' = Some c ->
    length (h_c h') = length (h_c h) ->
    (forall c', c' <> c -> h_c h' !! c' = h_c h !! c') ->
    (forall c', reader_at h' c' = reader_at h c') ->
    effect h i b Copy h' (ORet (RBody (length (h_b h)) None)) []
| eff_close c h' b' :
    body_common b = Some c -> h_b h' = <[i := b']> (h_b h) -> body_common b' = None ->
    1 < zlen (refs (h_b h) c) ->
    length (h_c h') = length (h_c h) ->
    (forall c', c' <> c -> h_c h' !! c' = h_c h !! c') ->
    (forall c', reader_at h' c' = reader_at h c') ->
    effect h i b Close h' (ORet (RErr None)) []
| eff_last c r h' b' err evs :
    body_common b = Some c -> h_b h' = <[i := b']> (h_b h) -> body_common b' = None ->
    zlen (refs (h_b h) c) = 1 -> reader_at h c = Some r ->
    length (h_c h') = length (h_c h) ->
    (forall c', c' <> c -> h_c h' !! c' = h_c h !! c') -> reader_at h' c = None ->
    (if is_closer (ev_caps E r)
     then evs = [EvClose r err] /\ ev_close E (h_w h) r = (h_w h', err)
     else evs = [] /\ err = None /\ h_w h' = h_w h) ->
    effect h i b Close h' (ORet (RErr err)) evs.

Lemma keep_same h i b f o :
  h_b h !! i = Some b -> (f = Copy \/ f = Close -> body_common b = None) -> exists evs, h_log h = h_log h ++ evs /\ effect h i b f h o evs.
Proof.
  intros Hi Hf. exists []. rewrite app_nil_r. split; [done|]. eapply eff_keep; try done. by rewrite list_insert_id.
Qed.

Lemma ra_fetch_log r h p len off h1 o :
  0 <= off <= len -> ra_fetch E r h p len off = (h1, o) ->
  h_b h1 = h_b h /\ h_c h1 = h_c h /\ exists evs, h_log h1 = h_log h ++ evs /\
  Forall (fun ev => not_close ev /\ ev_reader ev = Some r) evs.
Proof.
  intros Ho Hf. apply ra_fetch_spec in Hf as (H1 & H2 & Hc); [|done]. split; [done|]. split; [done|].
  destruct Hc as [(-> & _)|(_ & n & e & -> & _)].
  - exists []. rewrite app_nil_r. done.
  - eexists. split; [done|]. repeat constructor.
Qed.

Lemma sk_fetch_log r h p len off h1 o :
  sk_fetch E r h p len off = (h1, o) ->
  h_b h1 = h_b h /\ h_c h1 = h_c h /\ exists evs, h_log h1 = h_log h ++ evs /\
  Forall (fun ev => not_close ev /\ ev_reader ev = Some r) evs.
Proof.
  unfold sk_fetch. gif.
  2:{ intros [= <- <-]. do 2 (split; [done|]). exists []. by rewrite app_nil_r. }
  set (x := take _ p). unfold sk_rd. destruct (ev_seek E (h_w h) r off SeekStart) as [w0 [n0 [e0|]]].
  - intros [= <- <-]. do 2 (split; [done|]). eexists. split; [done|]. repeat constructor.
  - destruct (ev_read E w0 r x) as [w1 [[n q] e]]. gif; intros [= <- <-]; (do 2 (split; [done|])); cbn;
      rewrite <- app_assoc; eexists; (split; [done|]); repeat constructor.
Qed.

Lemma pulls_events r w want w' evs d pe :
  pulls E r w want w' evs d pe -> Forall (fun ev => not_close ev /\ ev_reader ev = Some r) evs.
Proof. induction 1; repeat constructor; done. Qed.

Lemma reader_at_upd h h' c x x' :
  h_c h !! c = Some x -> h_c h' = <[c := x']> (h_c h) -> common_reader x' = common_reader x ->
  length (h_c h') = length (h_c h) /\ (forall c', c' <> c -> h_c h' !! c' = h_c h !! c') /\ (forall c', reader_at h' c' = reader_at h c').
Proof.
  intros Hx He Hr. assert (Hl : (c < length (h_c h))%nat) by (by eapply lookup_lt_Some).
  assert (H1 : forall c', c' <> c -> h_c h' !! c' = h_c h !! c').
  { intros c' Hc. rewrite He. apply list_lookup_insert_ne. congruence. }
  split; [by rewrite He, insert_length|]. split; [done|]. intros c'. unfold reader_at. destruct (decide (c' = c)) as [->|Hne]; [|by rewrite H1].
  rewrite He, list_lookup_insert by done. rewrite Hx. done.
Qed.

(** Effects from the summaries, for a Body sharing [c]. *)
Lemma keep_upd h i b f h' o evs c x x' r b' :
  h_b h !! i = Some b -> body_common b = Some c -> h_c h !! c = Some x -> common_reader x = Some r ->
  h_b h' = <[i := b']> (h_b h) -> body_common b' = Some c ->
  h_c h' = <[c := x']> (h_c h) -> common_reader x' = common_reader x ->
  h_log h' = h_log h ++ evs -> Forall (fun ev => not_close ev /\ ev_reader ev = Some r) evs ->
  f <> Copy -> f <> Close ->
  exists evs, h_log h' = h_log h ++ evs /\ effect h i b f h' o evs.
Proof.
  intros Hi Hbc Hx Hxr Eb Hbc' Ec Hxr' Hlog Hev Hf1 Hf2. exists evs. split; [done|].
  destruct (reader_at_upd _ _ _ _ _ Hx Ec Hxr') as (R0 & R1 & R2).
  eapply eff_keep; try done.
  - congruence.
  - intros c' Hc'. apply R1. congruence.
  - intros [?|?]; done.
  - eapply Forall_impl; [done|]. intros ev [H1 H2]. split; [done|]. rewrite H2. exists c. split; [done|].
    unfold reader_at. rewrite Hx. done.
Qed.

Lemma ra_effect fuel h i b f h' o :
  wf h -> h_b h !! i = Some (BReaderAt b) -> go_op f -> zlen (h_b h) < 2 ^ 31 ->
  run E h (method fuel (BReaderAt b) i f) = (h', o) ->
  exists evs, h_log h' = h_log h ++ evs /\ effect h i (BReaderAt b) f h' o evs.
Proof.
  intros Hwf Hi Hgo Hsz Hrun. destruct (rb_closed b) eqn:Hcl.
  { rewrite run_ra_closed in Hrun by done. injection Hrun as <- <-. apply keep_same; [done|].
    intros _. pose proof (wf_b _ Hwf _ _ Hi) as Hb. cbn in *. by rewrite Hcl in Hb. }
  destruct (ra_open_wf h i b Hwf Hi Hcl) as (c & cm & r & Ho). pose proof Ho as [ra_b0 ra_ncl0 ra_c0 ra_cm0 ra_r0 ra_at0 ra_off0 ra_len0].
  assert (Hlc : (c < length (h_c h))%nat) by (by eapply lookup_lt_Some).
  pose proof (wf_c _ Hwf _ _ ra_cm0) as (Hcnt & _).
  assert (Hkeep : forall h2 o2 b' x' evs, rb_common b' = Some c -> rc_r x' = Some r ->
     h_b h2 = <[i := BReaderAt b']> (h_b h) -> h_c h2 = <[c := CReaderAt x']> (h_c h) ->
     h_log h2 = h_log h ++ evs -> Forall (fun ev => not_close ev /\ ev_reader ev = Some r) evs ->
     f <> Copy -> f <> Close ->
     exists evs, h_log h2 = h_log h ++ evs /\ effect h i (BReaderAt b) f h2 o2 evs).
  { intros. eapply (keep_upd h i (BReaderAt b) f h2 o2 evs c (CReaderAt cm) (CReaderAt x') r (BReaderAt b')); try done. cbn. congruence. }
  destruct f; cbn [method] in Hrun.
  - rewrite run_rint, (run_ra_BytesRemaining _ _ _ _ _ _ _ Ho) in Hrun. injection Hrun as <- <-. apply keep_same; [done|by intros [|]].
  - rewrite run_rread, (run_ra_Read _ _ _ _ _ _ _ _ Ho) in Hrun.
    destruct (rb_err b); [injection Hrun as <- <-; apply keep_same; [done|by intros [|]]|]. cbv zeta in Hrun.
    set (off := ra_clamp (rb_offset b) (rc_length cm)) in *.
    assert (Hoff : 0 <= off <= rc_length cm) by (unfold off, ra_clamp; gif; lia).
    destruct (ra_fetch E r h p (rc_length cm) off) as [h1 o1] eqn:Hf.
    apply ra_fetch_log in Hf as (Hb1 & Hc1 & evs & Hlog & Hev); [|done].
    destruct o1 as [[[n p'] e]|e|].
    + injection Hrun as <- <-.
      eapply (Hkeep _ _ {| rb_common := Some c; rb_err := e; rb_offset := off + n; rb_closed := false |}
        (match e with Some _ => if off + n <? rc_length cm then {| rc_r := rc_r cm; rc_at := rc_at cm; rc_length := off + n; rc_refcnt := rc_refcnt cm |} else cm | None => cm end)); try done.
      * destruct e; [gif|]; done.
      * destruct e; [gif|]; cbn; rewrite ?Hb1; done.
      * destruct e; [gif|]; cbn; rewrite ?Hc1; try done; by rewrite list_insert_id.
      * destruct e; [gif|]; cbn; done.
    + injection Hrun as <- <-. eapply (Hkeep _ _ b cm); try done; [by rewrite Hb1, list_insert_id|by rewrite Hc1, list_insert_id].
    + injection Hrun as <- <-. eapply (Hkeep _ _ b cm); try done; [by rewrite Hb1, list_insert_id|by rewrite Hc1, list_insert_id].
  - rewrite run_rerr, (run_ra_Close _ _ _ _ _ _ _ Ho) in Hrun. cbv zeta in Hrun.
    pose proof (zlen_refs_le (h_b h) c) as Hle. pose proof (refs_pos (h_b h) c i _ Hi ra_c0) as Hpos.
    rewrite Hcnt, wrap32_id in Hrun by lia.
    destruct (zlen (refs (h_b h) c) - 1 >? 0) eqn:Hgt.
    + injection Hrun as <- <-. exists []. split; [by rewrite app_nil_r|].
      edestruct (reader_at_upd h) as (R0 & R1 & R2); [exact ra_cm0| | |eapply (eff_close _ _ _ c); [done|done|done|lia|exact R0|exact R1|exact R2]]; done.
    + assert (Hr1 : zlen (refs (h_b h) c) = 1) by lia.
      assert (Hra : reader_at h c = Some r) by (unfold reader_at; rewrite ra_cm0; done).
      destruct (is_closer (ev_caps E r)) eqn:Hic.
      * destruct (ev_close E (h_w h) r) as [w err] eqn:Hec. injection Hrun as <- <-. eexists. split; [done|].
        eapply (eff_last _ _ _ c r); try done; cbn.
        -- by rewrite insert_length.
        -- intros c' Hne. apply list_lookup_insert_ne. congruence.
        -- unfold reader_at. cbn. rewrite list_lookup_insert by done. done.
        -- rewrite Hic. done.
      * injection Hrun as <- <-. exists []. split; [by rewrite app_nil_r|].
        eapply (eff_last _ _ _ c r); try done; cbn.
        -- by rewrite insert_length.
        -- intros c' Hne. apply list_lookup_insert_ne. congruence.
        -- unfold reader_at. cbn. rewrite list_lookup_insert by done. done.
        -- rewrite Hic. done.
  - cbn in Hgo. rewrite run_rseek, (run_ra_Seek _ _ _ _ _ _ _ _ _ Ho (proj1 Hgo)) in Hrun.
    destruct (seek_to (rc_length cm) (rb_offset b) offset whence) as [n [e|]] eqn:Hs.
    { injection Hrun as <- <-. apply keep_same; [done|by intros [|]]. }
    injection Hrun as <- <-. eapply (Hkeep _ _ {| rb_common := Some c; rb_err := None; rb_offset := n; rb_closed := false |} cm []); try done; cbn; [by rewrite list_insert_id|by rewrite app_nil_r].
  - rewrite run_rread, (run_ra_ReadAt _ _ _ _ _ _ _ _ _ Ho) in Hrun.
    destruct (offset <? 0) eqn:Hneg; [injection Hrun as <- <-; apply keep_same; [done|by intros [|]]|].
    set (off := ra_clamp offset (rc_length cm)) in *.
    assert (Hoff : 0 <= off <= rc_length cm) by (unfold off, ra_clamp; gif; lia).
    destruct (ra_fetch E r h p (rc_length cm) off) as [h1 o1] eqn:Hf.
    apply ra_fetch_log in Hf as (Hb1 & Hc1 & evs & Hlog & Hev); [|done].
    assert (h' = h1) as -> by (destruct o1 as [[[n p'] e]|e|]; congruence).
    eapply (Hkeep _ _ b cm); try done; [by rewrite Hb1, list_insert_id|by rewrite Hc1, list_insert_id].
  - cbn in Hrun. injection Hrun as <- <-. apply keep_same; [done|by intros [|]].
  - rewrite run_rbody, (run_ra_Copy _ _ _ _ _ _ _ Ho) in Hrun. injection Hrun as <- <-.
    exists []. split; [by rewrite app_nil_r|].
    edestruct (reader_at_upd h) as (R0 & R1 & R2); [exact ra_cm0| | |eapply (eff_copy _ _ _ c); [done|done|done|exact R0|exact R1|exact R2]]; done.
  - rewrite run_rreader, (run_ra_Unwrap _ _ _ _ _ _ _ Ho) in Hrun. injection Hrun as <- <-. apply keep_same; [done|by intros [|]].
Qed.

Lemma sk_effect fuel h i b f h' o :
  wf h -> h_b h !! i = Some (BSeeker b) -> go_op f -> zlen (h_b h) < 2 ^ 31 ->
  run E h (method fuel (BSeeker b) i f) = (h', o) ->
  exists evs, h_log h' = h_log h ++ evs /\ effect h i (BSeeker b) f h' o evs.
Proof.
  intros Hwf Hi Hgo Hsz Hrun. destruct (sb_closed b) eqn:Hcl.
  { rewrite run_sk_closed in Hrun by done. injection Hrun as <- <-. apply keep_same; [done|].
    intros _. pose proof (wf_b _ Hwf _ _ Hi) as Hb. cbn in *. by rewrite Hcl in Hb. }
  destruct (sk_open_wf h i b Hwf Hi Hcl) as (c & cm & r & Ho). pose proof Ho as [sk_b0 sk_ncl0 sk_c0 sk_cm0 sk_r0 sk_off0 sk_len0].
  assert (Hlc : (c < length (h_c h))%nat) by (by eapply lookup_lt_Some).
  pose proof (wf_c _ Hwf _ _ sk_cm0) as (Hcnt & _).
  assert (Hkeep : forall h2 o2 b' x' evs, sb_common b' = Some c -> sc_s x' = Some r ->
     h_b h2 = <[i := BSeeker b']> (h_b h) -> h_c h2 = <[c := CSeeker x']> (h_c h) ->
     h_log h2 = h_log h ++ evs -> Forall (fun ev => not_close ev /\ ev_reader ev = Some r) evs ->
     f <> Copy -> f <> Close ->
     exists evs, h_log h2 = h_log h ++ evs /\ effect h i (BSeeker b) f h2 o2 evs).
  { intros. eapply (keep_upd h i (BSeeker b) f h2 o2 evs c (CSeeker cm) (CSeeker x') r (BSeeker b')); try done. cbn. congruence. }
  destruct f; cbn [method] in Hrun.
  - rewrite run_rint, (run_sk_BytesRemaining _ _ _ _ _ _ _ Ho) in Hrun. injection Hrun as <- <-. apply keep_same; [done|by intros [|]].
  - rewrite run_rread, (run_sk_Read _ _ _ _ _ _ _ _ Ho) in Hrun.
    destruct (sb_err b); [injection Hrun as <- <-; apply keep_same; [done|by intros [|]]|]. cbv zeta in Hrun.
    set (off := sk_clamp (sb_offset b) (sc_length cm)) in *.
    destruct (sk_fetch E r h p (sc_length cm) off) as [h1 o1] eqn:Hf.
    apply sk_fetch_log in Hf as (Hb1 & Hc1 & evs & Hlog & Hev).
    destruct o1 as [[[n p'] e]|e|].
    + injection Hrun as <- <-.
      eapply (Hkeep _ _ {| sb_common := Some c; sb_err := e; sb_offset := off + n; sb_closed := false |}
        (match e with Some _ => if off + n <? sc_length cm then {| sc_s := sc_s cm; sc_length := off + n; sc_refcnt := sc_refcnt cm |} else cm | None => cm end)); try done.
      * destruct e; [gif|]; done.
      * destruct e; [gif|]; cbn; rewrite ?Hb1; done.
      * destruct e; [gif|]; cbn; rewrite ?Hc1; try done; by rewrite list_insert_id.
      * destruct e; [gif|]; cbn; done.
    + injection Hrun as <- <-. eapply (Hkeep _ _ b cm); try done; [by rewrite Hb1, list_insert_id|by rewrite Hc1, list_insert_id].
    + injection Hrun as <- <-. eapply (Hkeep _ _ b cm); try done; [by rewrite Hb1, list_insert_id|by rewrite Hc1, list_insert_id].
  - rewrite run_rerr, (run_sk_Close _ _ _ _ _ _ _ Ho) in Hrun. cbv zeta in Hrun.
    pose proof (zlen_refs_le (h_b h) c) as Hle. pose proof (refs_pos (h_b h) c i _ Hi sk_c0) as Hpos.
    rewrite Hcnt, wrap32_id in Hrun by lia.
    destruct (zlen (refs (h_b h) c) - 1 >? 0) eqn:Hgt.
    + injection Hrun as <- <-. exists []. split; [by rewrite app_nil_r|].
      edestruct (reader_at_upd h) as (R0 & R1 & R2); [exact sk_cm0| | |eapply (eff_close _ _ _ c); [done|done|done|lia|exact R0|exact R1|exact R2]]; done.
    + assert (Hr1 : zlen (refs (h_b h) c) = 1) by lia.
      assert (Hra : reader_at h c = Some r) by (unfold reader_at; rewrite sk_cm0; done).
      destruct (is_closer (ev_caps E r)) eqn:Hic.
      * destruct (ev_close E (h_w h) r) as [w err] eqn:Hec. injection Hrun as <- <-. eexists. split; [done|].
        eapply (eff_last _ _ _ c r); try done; cbn.
        -- by rewrite insert_length.
        -- intros c' Hne. apply list_lookup_insert_ne. congruence.
        -- unfold reader_at. cbn. rewrite list_lookup_insert by done. done.
        -- rewrite Hic. done.
      * injection Hrun as <- <-. exists []. split; [by rewrite app_nil_r|].
        eapply (eff_last _ _ _ c r); try done; cbn.
        -- by rewrite insert_length.
        -- intros c' Hne. apply list_lookup_insert_ne. congruence.
        -- unfold reader_at. cbn. rewrite list_lookup_insert by done. done.
        -- rewrite Hic. done.
  - cbn in Hgo. rewrite run_rseek, (run_sk_Seek _ _ _ _ _ _ _ _ _ Ho (proj1 Hgo)) in Hrun.
    destruct (seek_to (sc_length cm) (sb_offset b) offset whence) as [n [e|]] eqn:Hs.
    { injection Hrun as <- <-. apply keep_same; [done|by intros [|]]. }
    injection Hrun as <- <-. eapply (Hkeep _ _ {| sb_common := Some c; sb_err := None; sb_offset := n; sb_closed := false |} cm []); try done; cbn; [by rewrite list_insert_id|by rewrite app_nil_r].
  - rewrite run_rread, (run_sk_ReadAt _ _ _ _ _ _ _ _ _ Ho) in Hrun.
    destruct (offset <? 0) eqn:Hneg; [injection Hrun as <- <-; apply keep_same; [done|by intros [|]]|].
    set (off := sk_clamp offset (sc_length cm)) in *.
    destruct (sk_fetch E r h p (sc_length cm) off) as [h1 o1] eqn:Hf.
    apply sk_fetch_log in Hf as (Hb1 & Hc1 & evs & Hlog & Hev).
    assert (h' = h1) as -> by (destruct o1 as [[[n p'] e]|e|]; congruence).
    eapply (Hkeep _ _ b cm); try done; [by rewrite Hb1, list_insert_id|by rewrite Hc1, list_insert_id].
  - cbn in Hrun. injection Hrun as <- <-. apply keep_same; [done|by intros [|]].
  - rewrite run_rbody, (run_sk_Copy _ _ _ _ _ _ _ Ho) in Hrun. injection Hrun as <- <-.
    exists []. split; [by rewrite app_nil_r|].
    edestruct (reader_at_upd h) as (R0 & R1 & R2); [exact sk_cm0| | |eapply (eff_copy _ _ _ c); [done|done|done|exact R0|exact R1|exact R2]]; done.
  - rewrite run_rreader, (run_sk_Unwrap _ _ _ _ _ _ _ Ho) in Hrun. injection Hrun as <- <-. apply keep_same; [done|by intros [|]].
Qed.

Lemma bf_effect fuel h i b f h' o :
  wf h -> h_b h !! i = Some (BBuffered b) -> go_op f -> zlen (h_b h) < 2 ^ 31 -> total_read (h_log h) <= 2 ^ 62 ->
  run E h (method fuel (BBuffered b) i f) = (h', o) ->
  exists evs, h_log h' = h_log h ++ evs /\ effect h i (BBuffered b) f h' o evs.
Proof.
  intros Hwf Hi Hgo Hsz Htot Hrun. destruct (bb_closed b) eqn:Hcl.
  { rewrite run_bf_closed in Hrun by done. injection Hrun as <- <-. apply keep_same; [done|].
    intros _. pose proof (wf_b _ Hwf _ _ Hi) as Hb. cbn in *. by rewrite Hcl in Hb. }
  destruct (bf_open_wf h i b Hwf Hi Hcl) as (c & cm & r & m & Ho). pose proof Ho as [bf_b0 bf_ncl0 bf_c0 bf_cm0 bf_live0 bf_eof0].
  pose proof bf_live0 as [L1 L2 L3 L4 L5 L6 L7 L8 L9].
  pose proof (bf_count_m _ _ _ _ _ _ _ Ho) as Hcm. pose proof (wf_t _ Hwf _ _ bf_cm0) as Hbe.
  pose proof (refs_pos (h_b h) c i _ Hi bf_c0) as Hpos.
  assert (Hlc : (c < length (h_c h))%nat) by (by eapply lookup_lt_Some).
  assert (Hkeep : forall h2 o2 b' x' evs, body_common b' = Some c -> bc_r x' = Some r ->
     h_b h2 = <[i := b']> (h_b h) -> h_c h2 = <[c := CBuffered x']> (h_c h) ->
     h_log h2 = h_log h ++ evs -> Forall (fun ev => not_close ev /\ ev_reader ev = Some r) evs ->
     f <> Copy -> f <> Close ->
     exists evs, h_log h2 = h_log h ++ evs /\ effect h i (BBuffered b) f h2 o2 evs).
  { intros. eapply (keep_upd h i (BBuffered b) f h2 o2 evs c (CBuffered cm) (CBuffered x') r b'); try done. cbn. congruence. }
  destruct f; cbn [method] in Hrun.
  - rewrite run_rint, (run_bf_BytesRemaining _ _ _ _ _ _ _ _ Ho) in Hrun. injection Hrun as <- <-. apply keep_same; [done|by intros [|]].
  - cbn in Hgo. unfold max_slice in Hgo. rewrite run_rread in Hrun.
    pose proof (run_bf_Read E fuel h i b c cm r m p Hwf Ho Hsz ltac:(lia) ltac:(lia)) as HR.
    destruct (bb_eof b) eqn:Heof. { rewrite HR in Hrun. injection Hrun as <- <-. apply keep_same; [done|by intros [|]]. }
    destruct HR as (w' & evs & d & cm1 & pe & Hf & HR).
    assert (Hevs : Forall (fun ev => not_close ev /\ ev_reader ev = Some r) evs).
    { destruct Hf as [(_ & _ & -> & _)|(_ & _ & Hp & _)]; [done|]. by eapply pulls_events. }
    assert (Hr1 : bc_r cm1 = Some r).
    { destruct Hf as [(_ & _ & _ & _ & -> & _)|(_ & _ & _ & ->)]; done. }
    assert (Hfail : forall o2, exists evs0, h_log (heap_cwl h (<[c := CBuffered cm1]> (h_c h)) w' evs) = h_log h ++ evs0 /\
        effect h i (BBuffered b) (Read p) (heap_cwl h (<[c := CBuffered cm1]> (h_c h)) w' evs) o2 evs0).
    { intros o2. eapply (Hkeep _ _ (BBuffered b) cm1 evs); try done. cbn. by rewrite list_insert_id. }
    destruct pe as [|e| |].
    + destruct HR as (cm2 & Hre & Hn & HR). rewrite HR in Hrun. injection Hrun as <- <-.
      eapply (Hkeep _ _ _ cm2 evs); [| |done..]; [done|].
      destruct (_ && _) in Hre; [destruct Hre as (R1 & _)|]; congruence.
    + destruct HR as (cm2 & Hre & Hn & HR). rewrite HR in Hrun. injection Hrun as <- <-.
      eapply (Hkeep _ _ _ cm2 evs); [| |done..]; [done|].
      destruct (_ && _) in Hre; [destruct Hre as (R1 & _)|]; congruence.
    + rewrite HR in Hrun. injection Hrun as <- <-. apply Hfail.
    + rewrite HR in Hrun. injection Hrun as <- <-. apply Hfail.
  - rewrite run_rerr in Hrun. pose proof (run_bf_Close E h i b c cm r m Hwf Ho Hsz) as HC. cbv zeta in HC.
    destruct (zlen m >? 1) eqn:Hm1.
    + destruct HC as (cm' & Hre & HC). rewrite HC in Hrun. injection Hrun as <- <-.
      exists []. split; [by rewrite app_nil_r|].
      edestruct (reader_at_upd h) as (R0 & R1 & R2); [exact bf_cm0| | |eapply (eff_close _ _ _ c); [done|done|done|lia|exact R0|exact R1|exact R2]]; [done|].
      cbn. destruct (_ =? _) in Hre; [destruct Hre as (R1 & _); exact R1|]. by subst cm'.
    + assert (Hr1 : zlen (refs (h_b h) c) = 1) by lia.
      assert (Hra : reader_at h c = Some r) by (unfold reader_at; rewrite bf_cm0; done).
      rewrite HC in Hrun. destruct (is_closer (ev_caps E r)) eqn:Hic.
      * destruct (ev_close E (h_w h) r) as [w err] eqn:Hec. injection Hrun as <- <-. eexists. split; [done|].
        eapply (eff_last _ _ _ c r); try done; cbn.
        -- by rewrite insert_length.
        -- intros c' Hne. apply list_lookup_insert_ne. congruence.
        -- unfold reader_at. cbn. rewrite list_lookup_insert by done. done.
        -- rewrite Hic. done.
      * injection Hrun as <- <-. exists []. split; [by rewrite app_nil_r|].
        eapply (eff_last _ _ _ c r); try done; cbn.
        -- by rewrite insert_length.
        -- intros c' Hne. apply list_lookup_insert_ne. congruence.
        -- unfold reader_at. cbn. rewrite list_lookup_insert by done. done.
        -- rewrite Hic. done.
  - cbn in Hrun. injection Hrun as <- <-. apply keep_same; [done|by intros [|]].
  - cbn in Hrun. injection Hrun as <- <-. apply keep_same; [done|by intros [|]].
  - cbn in Hrun. injection Hrun as <- <-. apply keep_same; [done|by intros [|]].
  - rewrite run_rbody, (run_bf_Copy _ _ _ _ _ _ _ _ Hwf Ho) in Hrun. injection Hrun as <- <-.
    exists []. split; [by rewrite app_nil_r|].
    edestruct (reader_at_upd h) as (R0 & R1 & R2); [exact bf_cm0| | |eapply (eff_copy _ _ _ c); [done|done|done|exact R0|exact R1|exact R2]]; done.
  - rewrite run_rreader, (run_bf_Unwrap _ _ _ _ _ _ _ _ Ho) in Hrun. injection Hrun as <- <-. apply keep_same; [done|by intros [|]].
Qed.

(** In-memory Bodies: no shared object, no Reader. *)
Lemma mem_effect fuel h i b f h' o :
  h_b h !! i = Some b -> (b = BClosed \/ (exists x, b = BEmpty x) \/ exists x, b = BBytes x) ->
  run E h (method fuel b i f) = (h', o) ->
  exists evs, h_log h' = h_log h ++ evs /\ effect h i b f h' o evs.
Proof.
  intros Hi Hb Hrun.
  assert (Hbc : body_common b = None) by (destruct Hb as [->|[[x ->]|[x ->]]]; done).
  assert (Hsame : forall f o2, exists evs, h_log h = h_log h ++ evs /\ effect h i b f h o2 evs).
  { intros. by apply keep_same. }
  assert (Hst : forall f o2 b', body_common b' = None ->
     exists evs, h_log (set_b h (<[i := b']> (h_b h))) = h_log h ++ evs /\ effect h i b f (set_b h (<[i := b']> (h_b h))) o2 evs).
  { intros f' o2 b' Hb'. exists []. split; [cbn; by rewrite app_nil_r|]. eapply eff_keep; try done. congruence. }
  assert (Hnew : forall b', body_common b' = None ->
     exists evs, h_log (set_b h (h_b h ++ [b'])) = h_log h ++ evs /\ effect h i b Copy (set_b h (h_b h ++ [b'])) (ORet (RBody (length (h_b h)) None)) evs).
  { intros b' Hb'. exists []. split; [cbn; by rewrite app_nil_r|]. by eapply eff_mcopy. }
  destruct Hb as [->|[[x ->]|[x ->]]].
  - destruct f; cbn in Hrun; injection Hrun as <- <-; apply Hsame.
  - destruct f; cbn [method] in Hrun;
      unfold empty_BytesRemaining, empty_Read, empty_Close, empty_Seek, empty_ReadAt, empty_WriteTo, empty_Copy, empty_Unwrap in Hrun;
      revert Hrun; rs; repeat (gif; rs); intros [= <- <-]; first [apply Hsame|by apply Hst|by apply Hnew].
  - destruct f; cbn [method] in Hrun;
      unfold bytes_BytesRemaining, bytes_Read, bytes_Close, bytes_Seek, bytes_ReadAt, bytes_WriteTo, bytes_Copy, bytes_Unwrap in Hrun.
    + revert Hrun; rs; repeat (gif; rs); intros [= <- <-]; apply Hsame.
    + revert Hrun; rs. destruct (by_closed x); rs; [intros [= <- <-]; apply Hsame|].
      destruct (by_eof x); rs; [intros [= <- <-]; apply Hsame|].
      destruct (slice _ _ _); rs; [|intros [= <- <-]; apply Hsame].
      destruct (copy_into _ _ _ _); rs; [|intros [= <- <-]; apply Hsame].
      intros [= <- <-]. by apply Hst.
    + revert Hrun; rs. destruct (by_closed x); rs; intros [= <- <-]; [apply Hsame|by apply Hst].
    + revert Hrun; rs. destruct (by_closed x); rs; [intros [= <- <-]; apply Hsame|].
      gif; rs; [intros [= <- <-]; apply Hsame|]. gif; rs; [intros [= <- <-]; apply Hsame|]. gif; rs; [intros [= <- <-]; apply Hsame|].
      intros [= <- <-]. by apply Hst.
    + revert Hrun; rs. destruct (by_closed x); rs; [intros [= <- <-]; apply Hsame|].
      gif; rs; [intros [= <- <-]; apply Hsame|].
      destruct (slice _ _ _); rs; [|intros [= <- <-]; apply Hsame].
      destruct (copy_into _ _ _ _); rs; intros [= <- <-]; apply Hsame.
    + revert Hrun; rs. destruct (by_closed x); rs; [intros [= <- <-]; apply Hsame|].
      destruct (by_eof x); rs; [intros [= <- <-]; apply Hsame|].
      destruct (slice _ _ _) as [s|]; rs; [|intros [= <- <-]; apply Hsame].
      cbn. destruct (ev_write E (h_w h) w s) as [w' [[n err]|pn]] eqn:Hw; cbn.
      2:{ intros [= <- <-]. eexists. split; [done|]. eapply (eff_keep _ _ _ _ _ _ _ (BBytes x)); try done; [cbn; by rewrite list_insert_id|repeat constructor]. }
      destruct (n >=? 0) eqn:H0; cbn.
      2:{ intros [= <- <-]. eexists. split; [done|]. eapply (eff_keep _ _ _ _ _ _ _ (BBytes x)); try done; [cbn; by rewrite list_insert_id|repeat constructor]. }
      destruct (n <=? _) eqn:H1; cbn.
      2:{ intros [= <- <-]. eexists. split; [done|]. eapply (eff_keep _ _ _ _ _ _ _ (BBytes x)); try done; [cbn; by rewrite list_insert_id|repeat constructor]. }
      rewrite Hi. cbn. intros [= <- <-]. eexists. split; [done|]. eapply eff_keep; try done. repeat constructor.
    + revert Hrun; rs. destruct (by_closed x); rs; intros [= <- <-]; [apply Hsame|by apply Hnew].
    + revert Hrun; rs; repeat (gif; rs); intros [= <- <-]; apply Hsame.
Qed.

Theorem call_effect fuel h i b f h' o :
  wf h -> h_b h !! i = Some b -> go_op f -> feasible h ->
  exec E fuel h (Call i f) = (h', o) ->
  exists evs, h_log h' = h_log h ++ evs /\ effect h i b f h' o evs.
Proof.
  intros Hwf Hi Hgo [Hf1 Hf2] Hex. unfold exec, cmd_prog in Hex. rewrite Hi in Hex.
  destruct b as [|b|b|b|b|b].
  - eapply mem_effect; [done|by left|done].
  - eapply mem_effect; [done|right; left; by eexists|done].
  - eapply mem_effect; [done|right; right; by eexists|done].
  - by eapply sk_effect.
  - by eapply ra_effect.
  - by eapply bf_effect.
Qed.

End Effect.
