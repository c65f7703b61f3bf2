(** * Facts about single calls that hold for every Reader (proofs) *)
From stdpp Require Import gmap.
From Coq Require Import ZifyBool.
From Verif Require Export Own.

Section Any.
Context {W : Type} (E : env W) (fuel : nat).
Implicit Types h : heap W.

(** ** Read and ReadAt: counts and buffers *)

Lemma buffer_ok_none b p evs : handed evs = 0 -> buffer_ok b p evs 0 p.
Proof. intros He. unfold buffer_ok. rewrite He. pose proof (zlen_nonneg p). destruct (seekable_kind b); split_and!; done || lia. Qed.
Lemma buffer_ok_front (s p : bytes) n b evs :
  seekable_kind b = false -> 0 <= n <= zlen p -> zlen s = n -> buffer_ok b p evs n (s ++ drop (Z.to_nat n) p).
Proof.
  intros Hb Hn Hs. unfold buffer_ok. rewrite Hb. unfold zlen in *. split; [done|]. split.
  - rewrite app_length, drop_length. lia.
  - rewrite drop_app_alt by lia. done.
Qed.

Lemma bf_off_bounds h i b c cm r m : bf_open h i b c cm r m -> bc_start cm <= bb_offset b <= buf_end cm.
Proof.
  intros Ho. pose proof (bf_member_self _ _ _ _ _ _ _ Ho) as [Hin Hself]. destruct Ho as [bf_b0 bf_ncl0 bf_c0 bf_cm0 bf_live0 bf_eof0].
  destruct bf_live0 as [L1 L2 L3 L4 L5 L6 L7 L8 L9]. specialize (L5 _ Hin). rewrite Hself in L5. done.
Qed.

Lemma read_buffer h i b f p h' n p' err :
  wf h -> feasible h -> h_b h !! i = Some b -> go_op f -> (f = Read p \/ exists off, f = ReadAt p off) ->
  exec E fuel h (Call i f) = (h', ORet (RRead n p' err)) ->
  exists evs, h_log h' = h_log h ++ evs /\ buffer_ok b p evs n p'.
Proof.
  intros Hwf [Hf1 Hf2] Hi Hgo Hf Hex.
  assert (Hsame : forall e, (h', ORet (RRead n p' err)) = (h, ORet (RRead 0 p e)) -> exists evs, h_log h' = h_log h ++ evs /\ buffer_ok b p evs n p').
  { intros e [= -> -> -> ->]. exists []. rewrite app_nil_r. split; [done|]. by apply buffer_ok_none. }
  destruct (shut b) eqn:Hsh.
  { rewrite (shut_exec E fuel h i b f Hi Hsh) in Hex. destruct Hf as [->|[off ->]]; destruct (has_method b _); try done; eapply Hsame; symmetry; exact Hex. }
  unfold exec, cmd_prog in Hex. rewrite Hi in Hex. pose proof (zlen_nonneg p) as Hp0.
  destruct b as [|b|b|b|b|b]; cbn in Hsh; try done.
  - destruct Hf as [->|[off ->]]; cbn in Hex; rewrite Hi in Hex; cbn in Hex; rewrite Hsh in Hex.
    + destruct (em_eof b || (zlen p >? 0)) eqn:He; cbn in Hex; rewrite ?Hi in Hex; cbn in Hex;
        injection Hex as <- <- <- <-; exists []; cbn; rewrite app_nil_r; (split; [done|]); by apply buffer_ok_none.
    + destruct (zlen p >? 0); cbn in Hex; eapply Hsame; symmetry; exact Hex.
  - pose proof (wf_b _ Hwf _ _ Hi) as [Hb1 Hb2].
    destruct Hf as [->|[off ->]]; cbn [method] in Hex; unfold bytes_Read, bytes_ReadAt in Hex; revert Hex; rs; rewrite Hsh; rs.
    + destruct (by_eof b) eqn:Hbe; rs; [intros Hex; eapply Hsame; symmetry; exact Hex|].
      set (k := if zlen p >? zlen (by_data b) - by_offset b then _ else _).
      assert (Hk : 0 <= k <= zlen p /\ k <= zlen (by_data b) - by_offset b) by (unfold k; gif; lia).
      rewrite slice_ok by lia. rs. rewrite copy_into_ok; [|lia|rewrite zlen_take, zlen_drop; lia]. rs.
      intros [= <- <- <- <-]. exists []. cbn. rewrite app_nil_r. split; [done|].
      apply buffer_ok_front; [done|lia|]. rewrite zlen_take, zlen_drop. lia.
    + destruct (off <? 0) eqn:Hneg; rs; [intros Hex; eapply Hsame; symmetry; exact Hex|].
      set (o2 := if off >? zlen (by_data b) then _ else _).
      set (k := if zlen p >? zlen (by_data b) - o2 then _ else _).
      assert (Ho2 : 0 <= o2 <= zlen (by_data b)) by (unfold o2; gif; lia).
      assert (Hk : 0 <= k <= zlen p /\ k <= zlen (by_data b) - o2) by (unfold k; gif; lia).
      rewrite slice_ok by lia. rs. rewrite copy_into_ok; [|lia|rewrite zlen_take, zlen_drop; lia]. rs.
      intros [= <- <- <- <-]. exists []. cbn. rewrite app_nil_r. split; [done|].
      apply buffer_ok_front; [done|lia|]. rewrite zlen_take, zlen_drop. lia.
  - destruct (sk_open_wf h i b Hwf Hi Hsh) as (c & cm & r & Ho). pose proof Ho as [sk_b0 sk_ncl0 sk_c0 sk_cm0 sk_r0 sk_off0 sk_len0].
    assert (Hcore : forall off h1 o1, 0 <= off <= sc_length cm -> sk_fetch E r h p (sc_length cm) off = (h1, o1) ->
      o1 = ORet (n, p', err) -> h_log h' = h_log h1 -> exists evs, h_log h' = h_log h ++ evs /\ buffer_ok (BSeeker b) p evs n p').
    { intros off h1 o1 Hoff Hf1' -> Hl. apply sk_fetch_spec in Hf1' as (_ & _ & Hc); [|done].
      destruct Hc as [(-> & _ & [= -> -> ->])|(Hlt & evs & n1 & e1 & Hlog & Hevs & [(Hn & p1 & e2 & [= <- <- <-] & Hlen & _ & Hh & Hd & _)|(_ & [=])])].
      - exists []. rewrite app_nil_r. split; [done|]. by apply buffer_ok_none.
      - exists evs. split; [congruence|]. unfold buffer_ok. cbn [seekable_kind]. split; [lia|]. done. }
    destruct Hf as [->|[off ->]]; cbn [method] in Hex; rewrite run_rread in Hex.
    + rewrite (run_sk_Read E h i b c cm r p Ho) in Hex.
      destruct (sb_err b); [eapply Hsame; symmetry; exact Hex|]. cbv zeta in Hex.
      assert (Hoff : 0 <= sk_clamp (sb_offset b) (sc_length cm) <= sc_length cm) by (unfold sk_clamp; gif; lia).
      destruct (sk_fetch E r h p (sc_length cm) _) as [h1 [[[n1 p1] e1]| |]] eqn:Hfe; [|done..].
      injection Hex as Hh <- <- <-. eapply Hcore; [exact Hoff|exact Hfe|done|]. rewrite <- Hh. destruct e1; [gif|]; done.
    + rewrite (run_sk_ReadAt E h i b c cm r p off Ho) in Hex.
      destruct (off <? 0) eqn:Hneg; [eapply Hsame; symmetry; exact Hex|].
      assert (Hoff : 0 <= sk_clamp off (sc_length cm) <= sc_length cm) by (unfold sk_clamp; gif; lia).
      destruct (sk_fetch E r h p (sc_length cm) _) as [h1 [[[n1 p1] e1]| |]] eqn:Hfe; [|done..].
      injection Hex as <- <- <- <-. eapply Hcore; [exact Hoff|exact Hfe|done|done].
  - destruct (ra_open_wf h i b Hwf Hi Hsh) as (c & cm & r & Ho). pose proof Ho as [ra_b0 ra_ncl0 ra_c0 ra_cm0 ra_r0 ra_at0 ra_off0 ra_len0].
    assert (Hcore : forall off h1 o1, 0 <= off <= rc_length cm -> ra_fetch E r h p (rc_length cm) off = (h1, o1) ->
      o1 = ORet (n, p', err) -> h_log h' = h_log h1 -> exists evs, h_log h' = h_log h ++ evs /\ buffer_ok (BReaderAt b) p evs n p').
    { intros off h1 o1 Hoff Hf1' -> Hl. apply ra_fetch_spec in Hf1' as (_ & _ & Hc); [|done].
      destruct Hc as [(-> & _ & [= -> -> ->])|(Hlt & n1 & e1 & Hlog & [(Hn & p1 & e2 & [= <- <- <-] & Hlen & Hd & _)|(_ & [=])])].
      - exists []. rewrite app_nil_r. split; [done|]. by apply buffer_ok_none.
      - eexists. split; [rewrite Hl; exact Hlog|]. unfold buffer_ok. cbn [seekable_kind]. split; [lia|]. split; [done|].
        cbn. split; [lia|]. destruct (decide (zlen p <= rc_length cm - off)).
        + rewrite !drop_ge; [done|unfold zlen in *; lia..].
        + replace (Z.max _ 0) with (rc_length cm - off) by lia. done. }
    destruct Hf as [->|[off ->]]; cbn [method] in Hex; rewrite run_rread in Hex.
    + rewrite (run_ra_Read E h i b c cm r p Ho) in Hex.
      destruct (rb_err b); [eapply Hsame; symmetry; exact Hex|]. cbv zeta in Hex.
      assert (Hoff : 0 <= ra_clamp (rb_offset b) (rc_length cm) <= rc_length cm) by (unfold ra_clamp; gif; lia).
      destruct (ra_fetch E r h p (rc_length cm) _) as [h1 [[[n1 p1] e1]| |]] eqn:Hfe; [|done..].
      injection Hex as Hh <- <- <-. eapply Hcore; [exact Hoff|exact Hfe|done|]. rewrite <- Hh. destruct e1; [gif|]; done.
    + rewrite (run_ra_ReadAt E h i b c cm r p off Ho) in Hex.
      destruct (off <? 0) eqn:Hneg; [eapply Hsame; symmetry; exact Hex|].
      assert (Hoff : 0 <= ra_clamp off (rc_length cm) <= rc_length cm) by (unfold ra_clamp; gif; lia).
      destruct (ra_fetch E r h p (rc_length cm) _) as [h1 [[[n1 p1] e1]| |]] eqn:Hfe; [|done..].
      injection Hex as <- <- <- <-. eapply Hcore; [exact Hoff|exact Hfe|done|done].
  - destruct Hf as [->|[off ->]]; cbn [method] in Hex; [|done]. cbn in Hgo. unfold max_slice in Hgo. rewrite run_rread in Hex.
    destruct (bf_open_wf h i b Hwf Hi Hsh) as (c & cm & r & m & Ho).
    pose proof (wf_t _ Hwf _ _ (bf_cm _ _ _ _ _ _ _ Ho)) as Hbe.
    pose proof (run_bf_Read E fuel h i b c cm r m p Hwf Ho Hf1 ltac:(lia) ltac:(lia)) as HR.
    destruct (bb_eof b) eqn:Heof; [rewrite HR in Hex; eapply Hsame; symmetry; exact Hex|].
    destruct HR as (w' & evs & d & cm1 & pe & Hf & HR).
    assert (Hmain : (exists cm2, 0 <= Z.min (bb_offset b + zlen p) (buf_end cm1) - bb_offset b <= zlen p /\
      run E h (buffered_Read fuel i p) = (set_b (heap_cwl h (<[c := CBuffered cm2]> (h_c h)) w' evs) (<[i := at_offset c (Z.min (bb_offset b + zlen p) (buf_end cm1)) (bb_offset b + zlen p >? buf_end cm1)]> (h_b h)),
         ORet (Z.min (bb_offset b + zlen p) (buf_end cm1) - bb_offset b, take (Z.to_nat (Z.min (bb_offset b + zlen p) (buf_end cm1) - bb_offset b)) (drop (Z.to_nat (bb_offset b - bc_start cm)) (bc_bytes cm1)) ++ drop (Z.to_nat (Z.min (bb_offset b + zlen p) (buf_end cm1) - bb_offset b)) p,
               if bb_offset b + zlen p >? buf_end cm1 then bc_err cm1 else None))) ->
       exists evs, h_log h' = h_log h ++ evs /\ buffer_ok (BBuffered b) p evs n p').
    { intros (cm2 & Hn & HR2). rewrite HR2 in Hex. injection Hex as <- <- <- <-. exists evs. split; [done|].
      apply buffer_ok_front; [done|lia|]. rewrite zlen_take, zlen_drop.
      pose proof (bf_off_bounds _ _ _ _ _ _ _ Ho) as Hob.
      destruct Ho as [bf_b0 bf_ncl0 bf_c0 bf_cm0 bf_live0 bf_eof0]. destruct bf_live0 as [L1 L2 L3 L4 L5 L6 L7 L8 L9].
      pose proof (fetch_rel_facts E _ _ _ _ _ _ _ _ _ Hf L4 ltac:(lia) L8 L9) as
        (F1 & F2 & F3 & F4 & F5 & F6 & F7 & F7b & F8 & F9 & F10).
      unfold buf_end in *. rewrite F3 in *. lia. }
    destruct pe as [|e| |]; [destruct HR as (cm2 & _ & Hn & HR); apply Hmain; eauto..|rewrite HR in Hex; done|rewrite HR in Hex; done].
Qed.

Lemma fetch_within r w cm upto w' evs d cm1 pe :
  fetch_rel E r w cm upto w' evs d cm1 pe -> 0 <= bc_start cm -> upto - buf_end cm <= 2 ^ 62 ->
  0 <= bc_length cm -> buf_end cm <= bc_length cm -> buf_end cm1 <= bc_length cm.
Proof.
  intros [(H1 & -> & -> & -> & -> & ->)|(H1 & H2 & H3 & ->)] Hst Hup Hl Hle; [done|].
  pose proof (pulls_len _ _ _ _ _ _ _ _ H3 (fetch_want_nonneg cm upto Hst H2 Hup (or_intror Hle))) as (P1 & _ & _).
  unfold fetch_want in P1. destruct (bc_length cm >=? 0) eqn:Hx; [|lia]. unfold buf_end in *. cbn. rewrite zlen_app. lia.
Qed.

(** Read delivers no more than BytesRemaining announces. *)
Lemma read_available h i z p h' n p' err :
  wf h -> feasible h -> zlen p <= max_slice ->
  exec E fuel h (Call i BytesRemaining) = (h, ORet (RInt z)) -> 0 <= z ->
  exec E fuel h (Call i (Read p)) = (h', ORet (RRead n p' err)) ->
  n <= z /\ drop (Z.to_nat z) p' = drop (Z.to_nat z) p.
Proof.
  intros Hwf [Hf1 Hf2] Hgo Hbr Hz Hex. pose proof (zlen_nonneg p) as Hp0.
  assert (Hsame : forall e h0, (h', ORet (RRead n p' err)) = (h0, ORet (RRead 0 p e)) -> n <= z /\ drop (Z.to_nat z) p' = drop (Z.to_nat z) p).
  { intros e h0 [= -> -> -> ->]. split; [lia|done]. }
  assert (Hfront : forall k s, 0 <= k <= zlen p -> zlen s = k -> k <= z -> n = k -> p' = s ++ drop (Z.to_nat k) p -> n <= z /\ drop (Z.to_nat z) p' = drop (Z.to_nat z) p).
  { intros k s Hk Hs Hkz -> ->. split; [done|]. rewrite drop_app_ge by (unfold zlen in *; lia). rewrite drop_drop. f_equal. unfold zlen in *; lia. }
  unfold exec in Hbr, Hex. cbn [cmd_prog] in Hbr, Hex. destruct (h_b h !! i) as [b|] eqn:Hi; [|done].
  destruct (shut b) eqn:Hsh.
  { pose proof (shut_exec E fuel h i b (Read p) Hi Hsh) as H. unfold exec in H. cbn [cmd_prog] in H. rewrite Hi in H. rewrite H in Hex.
    destruct (has_method b _); [|done]. cbn in Hex. eapply Hsame. symmetry. exact Hex. }
  destruct b as [|b|b|b|b|b]; cbn in Hsh; try done.
  - cbn in Hex; rewrite Hi in Hex; cbn in Hex; rewrite Hsh in Hex.
    destruct (em_eof b || (zlen p >? 0)) eqn:He; cbn in Hex; rewrite ?Hi in Hex; cbn in Hex; eapply Hsame; symmetry; exact Hex.
  - pose proof (wf_b _ Hwf _ _ Hi) as [Hb1 Hb2]. cbn [method] in Hbr, Hex.
    revert Hbr. unfold bytes_BytesRemaining. rs. rewrite Hsh. rs. intros [= Hzz].
    revert Hex. unfold bytes_Read. rs. rewrite Hsh. rs.
    destruct (by_eof b) eqn:Hbe; rs; [intros Hex; eapply Hsame; symmetry; exact Hex|].
    set (k := if zlen p >? zlen (by_data b) - by_offset b then _ else _).
    assert (Hk : 0 <= k <= zlen p /\ k <= zlen (by_data b) - by_offset b) by (unfold k; gif; lia).
    rewrite slice_ok by lia. rs. rewrite copy_into_ok; [|lia|rewrite zlen_take, zlen_drop; lia]. rs.
    intros [= <- <- <- <-]. eapply (Hfront k); [lia| |lia|done|done]. rewrite zlen_take, zlen_drop. lia.
  - destruct (sk_open_wf h i b Hwf Hi Hsh) as (c & cm & r & Ho). pose proof Ho as [sk_b0 sk_ncl0 sk_c0 sk_cm0 sk_r0 sk_off0 sk_len0].
    cbn [method] in Hbr, Hex. rewrite run_rread in Hex. unfold rint in Hbr. rewrite run_bind, (run_sk_BytesRemaining E h i b c cm r Ho) in Hbr.
    injection Hbr as Hzz. rewrite (run_sk_Read E h i b c cm r p Ho) in Hex.
    destruct (sb_err b); [eapply Hsame; symmetry; exact Hex|]. cbv zeta in Hex.
    assert (Hoff : sk_clamp (sb_offset b) (sc_length cm) = sb_offset b) by (unfold sk_clamp; gif; lia). rewrite Hoff in Hex.
    destruct (sk_fetch E r h p (sc_length cm) _) as [h1 [[[n1 p1] e1]| |]] eqn:Hfe; [|done..].
    injection Hex as _ -> -> ->. apply sk_fetch_spec in Hfe as (_ & _ & Hc); [|lia].
    destruct Hc as [(-> & _ & [= -> -> ->])|(Hlt & evs & n2 & e2 & Hlog & Hevs & [(Hn & p2 & e3 & [= <- <- <-] & Hlen & Hd & _)|(_ & [=])])]; [done|].
    rewrite Hzz in Hd. split; [lia|done].
  - destruct (ra_open_wf h i b Hwf Hi Hsh) as (c & cm & r & Ho). pose proof Ho as [ra_b0 ra_ncl0 ra_c0 ra_cm0 ra_r0 ra_at0 ra_off0 ra_len0].
    cbn [method] in Hbr, Hex. rewrite run_rread in Hex. unfold rint in Hbr. rewrite run_bind, (run_ra_BytesRemaining E h i b c cm r Ho) in Hbr.
    injection Hbr as Hzz. rewrite (run_ra_Read E h i b c cm r p Ho) in Hex.
    destruct (rb_err b); [eapply Hsame; symmetry; exact Hex|]. cbv zeta in Hex.
    assert (Hoff : ra_clamp (rb_offset b) (rc_length cm) <= rc_length cm /\ rc_length cm - ra_clamp (rb_offset b) (rc_length cm) = z /\ 0 <= ra_clamp (rb_offset b) (rc_length cm))
      by (unfold ra_clamp; gif; lia).
    destruct (ra_fetch E r h p (rc_length cm) _) as [h1 [[[n1 p1] e1]| |]] eqn:Hfe; [|done..].
    injection Hex as _ -> -> ->. apply ra_fetch_spec in Hfe as (_ & _ & Hc); [|lia].
    destruct Hc as [(-> & _ & [= -> -> ->])|(Hlt & n2 & e2 & Hlog & [(Hn & p2 & e3 & [= <- <- <-] & Hlen & Hd & _)|(_ & [=])])]; [done|].
    destruct Hoff as (_ & Hoff & _). rewrite Hoff in Hd, Hn. split; [lia|done].
  - destruct (bf_open_wf h i b Hwf Hi Hsh) as (c & cm & r & m & Ho). unfold max_slice in Hgo.
    cbn [method] in Hbr, Hex. rewrite run_rread in Hex. unfold rint in Hbr. rewrite run_bind, (run_bf_BytesRemaining E h i b c cm r m Ho) in Hbr.
    injection Hbr as Hzz.
    pose proof (wf_t _ Hwf _ _ (bf_cm _ _ _ _ _ _ _ Ho)) as Hbe.
    pose proof (run_bf_Read E fuel h i b c cm r m p Hwf Ho Hf1 ltac:(lia) ltac:(lia)) as HR.
    destruct (bb_eof b) eqn:Heof; [rewrite HR in Hex; eapply Hsame; symmetry; exact Hex|].
    destruct (bc_length cm <? 0) eqn:Hbl; [lia|].
    destruct HR as (w' & evs & d & cm1 & pe & Hf & HR).
    pose proof (bf_off_bounds _ _ _ _ _ _ _ Ho) as Hob.
    destruct Ho as [bf_b0 bf_ncl0 bf_c0 bf_cm0 bf_live0 bf_eof0]. destruct bf_live0 as [L1 L2 L3 L4 L5 L6 L7 L8 L9].
    pose proof (fetch_rel_facts E _ _ _ _ _ _ _ _ _ Hf L4 ltac:(lia) L8 L9) as
        (F1 & F2 & F3 & F4 & F5 & F6 & F7 & F7b & F8 & F9 & F10).
    pose proof (fetch_within _ _ _ _ _ _ _ _ _ Hf L4 ltac:(lia) ltac:(lia) ltac:(lia)) as Hwi.
    assert (Hcl : forall k : Z, k = Z.min (bb_offset b + zlen p) (buf_end cm1) - bb_offset b -> 0 <= k <= zlen p -> n = k ->
       p' = take (Z.to_nat k) (drop (Z.to_nat (bb_offset b - bc_start cm)) (bc_bytes cm1)) ++ drop (Z.to_nat k) p ->
       n <= z /\ drop (Z.to_nat z) p' = drop (Z.to_nat z) p).
    { intros k Hk Hk2 Hn Hp'. eapply (Hfront k); [lia| |lia|done|exact Hp']. rewrite zlen_take, zlen_drop. unfold buf_end in *. rewrite F3 in *. lia. }
    destruct pe as [|e| |]; [destruct HR as (cm2 & _ & Hn & HR); rewrite HR in Hex; injection Hex as _ <- <- _; eapply Hcl; [reflexivity|exact Hn|done|done]..|rewrite HR in Hex; done|rewrite HR in Hex; done].
Qed.

(** ** No panics *)
Lemma pulls_not_bad r w want w' evs d :
  (forall w r p, 0 <= rd_count (snd (ev_read E w r p)) <= zlen p) -> ~ pulls E r w want w' evs d PBad.
Proof.
  intros Hrd Hp. remember PBad as pb eqn:Hpb. induction Hp as [| |w want bf1 w2 n q e1 H1 H2 H3 H4| |]; try done; auto.
  specialize (Hrd w r bf1). rewrite H3 in Hrd. cbn in Hrd. lia.
Qed.

Lemma no_panic h c h' o e :
  rule_abiding E -> wf h -> feasible h -> go_cmd c -> known h c -> exec E fuel h c = (h', o) -> o <> OPanic e.
Proof.
  intros (Hge & Hrd & Hra & Hst & Hsk & Hwr) Hwf [Hf1 Hf2] Hgo Hkn Hex ->.
  assert (Hfrom : forall r len, run E h (rfrom (FromReaderAndLength r len)) <> (h', OPanic e)).
  { intros r len. unfold rfrom. rewrite run_bind, run_From. destruct (find_len E (h_w h) r len) as [[w evs] x] eqn:Hf.
    destruct x; cbn; try done. intros _. revert Hf. unfold find_len.
    specialize (Hst (h_w h) r). destruct (ev_stat E (h_w h) r) as [w1 [n1 [e1|]]]; cbn in Hst; repeat (gif || case_match); intros [= ]; subst.
    all: try (specialize (Hst _ eq_refl); lia).
    all: try (match goal with H : ev_seek E ?a ?b ?c ?d = (_, (?n, None)) |- _ => pose proof (Hsk a b c d n) as HH; rewrite H in HH; specialize (HH eq_refl); lia end). }
  destruct c as [i f| | |d|s|r|r len|b]; cbn [exec cmd_prog] in Hex; unfold exec in Hex; cbn [cmd_prog] in Hex.
  2,3: done.
  2: unfold rnew, FromBytes in Hex; revert Hex; gif; done.
  2: unfold rnew, FromString in Hex; revert Hex; gif; done.
  2,3: by apply Hfrom in Hex.
  2:{ cbn in Hkn. apply lookup_lt_is_Some in Hkn as [o Ho]. rewrite Ho in Hex. done. }
  cbn in Hkn. apply lookup_lt_is_Some in Hkn as [b Hi]. pose proof Hex as Hex'. rewrite Hi in Hex.
  destruct (shut b) eqn:Hsh.
  { pose proof (shut_exec E fuel h i b f Hi Hsh) as Hs. unfold exec in Hs. cbn [cmd_prog] in Hs. rewrite Hi in Hs. congruence. }
  destruct b as [|b|b|b|b|b]; cbn in Hsh; try done.
  - destruct f; cbn in Hex; rewrite ?Hi in Hex; cbn in Hex; rewrite ?Hsh in Hex; cbn in Hex; rewrite ?Hi in Hex; try done;
      repeat (match type of Hex with context [if ?x then _ else _] => destruct x end; cbn in Hex; rewrite ?Hi in Hex; try done).
  - pose proof (wf_b _ Hwf _ _ Hi) as [Hb1 Hb2]. revert Hex.
    destruct f as [|p| |off wh|p off|w| |]; cbn [method];
      unfold bytes_BytesRemaining, bytes_Read, bytes_Close, bytes_Seek, bytes_ReadAt, bytes_WriteTo, bytes_Copy, bytes_Unwrap; rs; rewrite ?Hsh; rs.
    + done.
    + destruct (by_eof b); rs; [done|]. pose proof (zlen_nonneg p).
      set (k := if zlen p >? zlen (by_data b) - by_offset b then _ else _).
      assert (Hk : 0 <= k <= zlen p /\ k <= zlen (by_data b) - by_offset b) by (unfold k; gif; lia).
      rewrite slice_ok by lia. rs. rewrite copy_into_ok; [|lia|rewrite zlen_take, zlen_drop; lia]. rs. done.
    + done.
    + repeat (gif; rs; try done).
    + destruct (off <? 0) eqn:Hneg; rs; [done|]. pose proof (zlen_nonneg p).
      set (o2 := if off >? zlen (by_data b) then _ else _).
      set (k := if zlen p >? zlen (by_data b) - o2 then _ else _).
      assert (Ho2 : 0 <= o2 <= zlen (by_data b)) by (unfold o2; gif; lia).
      assert (Hk : 0 <= k <= zlen p /\ k <= zlen (by_data b) - o2) by (unfold k; gif; lia).
      rewrite slice_ok by lia. rs. rewrite copy_into_ok; [|lia|rewrite zlen_take, zlen_drop; lia]. rs. done.
    + destruct (by_eof b); rs; [done|]. rewrite slice_ok by lia. rs. unfold call_write.
      set (src := take _ _). assert (Hsrc : zlen src = zlen (by_data b) - by_offset b) by (unfold src; rewrite zlen_take, zlen_drop; lia).
      destruct (Hwr (h_w h) w src) as (n & err & Hw & Hn). cbn. destruct (ev_write E (h_w h) w src) as [w' x]. cbn in Hw. subst x. cbn.
      replace (n >=? 0) with true by lia. cbn. replace (n <=? zlen (by_data b) - by_offset b) with true by lia. cbn. rewrite Hi. done.
    + done.
    + done.
  - destruct (sk_open_wf h i b Hwf Hi Hsh) as (c & cm & r & Ho). pose proof Ho as [sk_b0 sk_ncl0 sk_c0 sk_cm0 sk_r0 sk_off0 sk_len0].
    assert (Hcore : forall p off h1 o1, 0 <= off <= sc_length cm -> sk_fetch E r h p (sc_length cm) off = (h1, o1) -> exists a, o1 = ORet a).
    { intros p off h1 o1 Hoff. unfold sk_fetch, sk_rd. gif; [|intros [= <- <-]; eauto].
      destruct (ev_seek E (h_w h) r off SeekStart) as [w0 [n0 [e0|]]]; [intros [= <- <-]; eauto|].
      set (px := take _ p). specialize (Hrd w0 r px). destruct (ev_read E w0 r px) as [w1 [[n q] e1]]. cbn in Hrd.
      replace ((0 <=? n) && (n <=? zlen px)) with true by lia. intros [= <- <-]. eauto. }
    destruct f as [|p| |off wh|p off|w| |]; cbn [method] in Hex; try done.
    + rewrite run_rint, (run_sk_BytesRemaining E _ _ _ _ _ _ Ho) in Hex. done.
    + rewrite run_rread, (run_sk_Read E _ _ _ _ _ _ _ Ho) in Hex. destruct (sb_err b); [done|]. cbv zeta in Hex.
      destruct (sk_fetch _ _ _ _ _ _) as [h1 o1] eqn:Hf. apply Hcore in Hf as [[[n q] e1] ->]; [done|]. unfold sk_clamp; gif; lia.
    + rewrite run_rerr, (run_sk_Close E _ _ _ _ _ _ Ho) in Hex. cbv zeta in Hex.
      destruct (_ >? 0); [done|]. destruct (is_closer _); [|done]. destruct (ev_close _ _ _); done.
    + cbn in Hgo. rewrite run_rseek, (run_sk_Seek E _ _ _ _ _ _ _ _ Ho (proj1 Hgo)) in Hex. destruct (seek_to _ _ _ _) as [? []]; done.
    + rewrite run_rread, (run_sk_ReadAt E _ _ _ _ _ _ _ _ Ho) in Hex. destruct (off <? 0) eqn:Hneg; [done|].
      destruct (sk_fetch _ _ _ _ _ _) as [h1 o1] eqn:Hf. apply Hcore in Hf as [[[n q] e1] ->]; [done|]. unfold sk_clamp; gif; lia.
    + rewrite run_rbody, (run_sk_Copy E _ _ _ _ _ _ Ho) in Hex. done.
    + rewrite run_rreader, (run_sk_Unwrap E _ _ _ _ _ _ Ho) in Hex. done.
  - destruct (ra_open_wf h i b Hwf Hi Hsh) as (c & cm & r & Ho). pose proof Ho as [ra_b0 ra_ncl0 ra_c0 ra_cm0 ra_r0 ra_at0 ra_off0 ra_len0].
    assert (Hcore : forall p off h1 o1, 0 <= off <= rc_length cm -> ra_fetch E r h p (rc_length cm) off = (h1, o1) -> exists a, o1 = ORet a).
    { intros p off h1 o1 Hoff. unfold ra_fetch, ra_rd. gif; [|intros [= <- <-]; eauto].
      set (px := take _ p). specialize (Hra (h_w h) r px off). destruct (ev_readat E (h_w h) r px off) as [w1 [[n q] e1]]. cbn in Hra.
      replace ((0 <=? n) && (n <=? zlen px)) with true by lia. intros [= <- <-]. eauto. }
    destruct f as [|p| |off wh|p off|w| |]; cbn [method] in Hex; try done.
    + rewrite run_rint, (run_ra_BytesRemaining E _ _ _ _ _ _ Ho) in Hex. done.
    + rewrite run_rread, (run_ra_Read E _ _ _ _ _ _ _ Ho) in Hex. destruct (rb_err b); [done|]. cbv zeta in Hex.
      destruct (ra_fetch _ _ _ _ _ _) as [h1 o1] eqn:Hf. apply Hcore in Hf as [[[n q] e1] ->]; [done|]. unfold ra_clamp; gif; lia.
    + rewrite run_rerr, (run_ra_Close E _ _ _ _ _ _ Ho) in Hex. cbv zeta in Hex.
      destruct (_ >? 0); [done|]. destruct (is_closer _); [|done]. destruct (ev_close _ _ _); done.
    + cbn in Hgo. rewrite run_rseek, (run_ra_Seek E _ _ _ _ _ _ _ _ Ho (proj1 Hgo)) in Hex. destruct (seek_to _ _ _ _) as [? []]; done.
    + rewrite run_rread, (run_ra_ReadAt E _ _ _ _ _ _ _ _ Ho) in Hex. destruct (off <? 0) eqn:Hneg; [done|].
      destruct (ra_fetch _ _ _ _ _ _) as [h1 o1] eqn:Hf. apply Hcore in Hf as [[[n q] e1] ->]; [done|]. unfold ra_clamp; gif; lia.
    + rewrite run_rbody, (run_ra_Copy E _ _ _ _ _ _ Ho) in Hex. done.
    + rewrite run_rreader, (run_ra_Unwrap E _ _ _ _ _ _ Ho) in Hex. done.
  - destruct (bf_open_wf h i b Hwf Hi Hsh) as (c & cm & r & m & Ho).
    pose proof (wf_t _ Hwf _ _ (bf_cm _ _ _ _ _ _ _ Ho)) as Hbe.
    destruct f as [|p| |off wh|p off|w| |]; cbn [method] in Hex; try done.
    + rewrite run_rint, (run_bf_BytesRemaining E _ _ _ _ _ _ _ Ho) in Hex. done.
    + cbn in Hgo. unfold max_slice in Hgo. rewrite run_rread in Hex.
      pose proof (run_bf_Read E fuel h i b c cm r m p Hwf Ho Hf1 ltac:(lia) ltac:(lia)) as HR.
      destruct (bb_eof b) eqn:Heof; [rewrite HR in Hex; done|].
      destruct HR as (w' & evs & d & cm1 & pe & Hf & HR).
      destruct pe as [|e1| |].
      * destruct HR as (? & _ & _ & HR). rewrite HR in Hex. done.
      * destruct HR as (? & _ & _ & HR). rewrite HR in Hex. done.
      * exfalso. destruct Hf as [(_ & _ & _ & _ & _ & [=])|(_ & _ & Hp & _)].
        by eapply pulls_not_bad.
      * rewrite HR in Hex. done.
    + rewrite run_rerr in Hex. pose proof (run_bf_Close E h i b c cm r m Hwf Ho Hf1) as HC. cbv zeta in HC.
      destruct (zlen m >? 1); [destruct HC as (? & _ & HC); rewrite HC in Hex; done|]. rewrite HC in Hex.
      destruct (is_closer _); [|done]. destruct (ev_close _ _ _); done.
    + rewrite run_rbody, (run_bf_Copy E _ _ _ _ _ _ _ Hwf Ho) in Hex. done.
    + rewrite run_rreader, (run_bf_Unwrap E _ _ _ _ _ _ _ Ho) in Hex. done.
Qed.

(** ** The same for reachable heaps *)
Lemma reached_read_buffer h i b f p h' n p' err :
  go_env E -> reaches E fuel h ->
  h_b h !! i = Some b -> go_op f -> (f = Read p \/ exists off, f = ReadAt p off) ->
  exec E fuel h (Call i f) = (h', ORet (RRead n p' err)) ->
  exists evs, h_log h' = h_log h ++ evs /\ buffer_ok b p evs n p'.
Proof. intros Hge Hr. apply reaches_wf in Hr as [Hwf Hf]; [|done]. by apply read_buffer. Qed.
Lemma reached_read_available h i z p h' n p' err :
  go_env E -> reaches E fuel h -> zlen p <= max_slice ->
  exec E fuel h (Call i BytesRemaining) = (h, ORet (RInt z)) -> 0 <= z ->
  exec E fuel h (Call i (Read p)) = (h', ORet (RRead n p' err)) ->
  n <= z /\ drop (Z.to_nat z) p' = drop (Z.to_nat z) p.
Proof. intros Hge Hr. apply reaches_wf in Hr as [Hwf Hf]; [|done]. by apply read_available. Qed.
Lemma reached_no_panic h c h' o e :
  rule_abiding E -> reaches E fuel h -> go_cmd c -> known h c -> exec E fuel h c = (h', o) -> o <> OPanic e.
Proof. intros Hra Hr. apply reaches_wf in Hr as [Hwf Hf]; [|apply Hra]. by apply no_panic. Qed.
End Any.
