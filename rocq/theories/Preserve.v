(** * The heap invariant holds in every reachable heap (proofs) *)
From stdpp Require Import gmap.
From Coq Require Import ZifyBool.
From Verif Require Export Buffered.

Section Preserve.
Context {W : Type} (E : env W).
Implicit Types h : heap W.

(** ** The log only grows *)
Lemma act_log {A} h (a : act A) h' x :
  act_step E h a = Some (h', x) -> exists evs, h_log h' = h_log h ++ evs.
Proof.
  destruct a; cbn; intros H;
    repeat match type of H with context [match ?x with _ => _ end] => destruct x eqn:? end; try done;
    injection H as <- <-; cbn; solve [exists []; by rewrite app_nil_r | by eexists].
Qed.
Lemma run_log {A} (m : prog A) : forall h h' o, run E h m = (h', o) -> exists evs, h_log h' = h_log h ++ evs.
Proof.
  induction m as [a|e| |X a k IH]; intros h h' o H; cbn in H;
    try (injection H as <- <-; exists []; by rewrite app_nil_r).
  destruct (act_step E h a) as [[h1 x]|] eqn:Ha.
  2:{ injection H as <- <-; exists []; by rewrite app_nil_r. }
  apply act_log in Ha as [e1 H1]. apply IH in H as [e2 H2]. exists (e1 ++ e2). rewrite H2, H1, app_assoc. done.
Qed.
Lemma exec_log fuel h c h' o : exec E fuel h c = (h', o) -> exists evs, h_log h' = h_log h ++ evs.
Proof. apply run_log. Qed.
Lemma exec_mono fuel h c h' o : exec E fuel h c = (h', o) -> total_read (h_log h) <= total_read (h_log h').
Proof.
  intros H. apply exec_log in H as [evs ->]. rewrite total_read_app. pose proof (total_read_nonneg evs). lia.
Qed.
Lemma exec_feasible fuel h c h' o : exec E fuel h c = (h', o) -> feasible h' -> feasible h.
Proof.
  intros H [H1 H2]. pose proof (exec_mono _ _ _ _ _ H). pose proof (exec_frame E _ _ _ _ _ H) as [Hl _].
  split; [unfold zlen in *; lia|lia].
Qed.

(** ** In-memory Bodies *)
Lemma mem_wf fuel h i o f h' out :
  wf h -> h_b h !! i = Some o -> (o = BClosed \/ (exists b, o = BEmpty b) \/ exists b, o = BBytes b) -> go_op f ->
  run E h (method fuel o i f) = (h', out) -> wf h'.
Proof.
  intros Hwf Hi Ho Hgo Hrun.
  destruct Ho as [->|[[b ->]|[b ->]]].
  - destruct f; cbn in Hrun; injection Hrun as <- <-; done.
  - assert (Hst : forall b', wf (set_b h (<[i := BEmpty b']> (h_b h)))).
    { intros b'. by eapply (wf_store h _ i (BEmpty b) (BEmpty b')). }
    assert (Hnew : forall b', wf (set_b h (h_b h ++ [BEmpty b']))).
    { intros b'. by eapply (wf_newb h _ (BEmpty b')). }
    destruct f; cbn [method] in Hrun;
      unfold empty_BytesRemaining, empty_Read, empty_Close, empty_Seek, empty_ReadAt, empty_WriteTo, empty_Copy, empty_Unwrap in Hrun;
      revert Hrun; rs; repeat (gif; rs); intros [= <- <-]; auto.
  - pose proof (wf_b _ Hwf _ _ Hi) as [Hoff Hlen].
    assert (Hst : forall b', 0 <= by_offset b' <= zlen (by_data b') -> zlen (by_data b') <= max_i64 ->
       wf (set_b h (<[i := BBytes b']> (h_b h)))).
    { intros b' H1 H2. by eapply (wf_store h _ i (BBytes b) (BBytes b')). }
    assert (Hnew : wf (set_b h (h_b h ++ [BBytes b]))).
    { by eapply (wf_newb h _ (BBytes b)). }
    pose proof (zlen_nonneg (by_data b)) as Hz.
    destruct f; cbn [method] in Hrun;
      unfold bytes_BytesRemaining, bytes_Read, bytes_Close, bytes_Seek, bytes_ReadAt, bytes_WriteTo, bytes_Copy, bytes_Unwrap in Hrun.
    + revert Hrun; rs; repeat (gif; rs); intros [= <- <-]; auto.
    + revert Hrun; rs. destruct (by_closed b); rs; [intros [= <- <-]; done|].
      destruct (by_eof b); rs; [intros [= <- <-]; done|]. pose proof (zlen_nonneg p) as Hp.
      set (n := if zlen p >? _ then _ else _).
      assert (Hn : 0 <= n <= zlen p /\ by_offset b + n <= zlen (by_data b)) by (unfold n; gif; lia).
      rewrite slice_ok by lia. rs. rewrite copy_into_ok; [|lia|rewrite zlen_take, zlen_drop; lia]. rs.
      intros [= <- <-]. apply Hst; cbn; lia.
    + revert Hrun; rs. destruct (by_closed b); rs; intros [= <- <-]; [done|]. apply Hst; cbn; unfold zlen; cbn; unfold max_i64; lia.
    + revert Hrun; rs. destruct (by_closed b); rs; [intros [= <- <-]; done|].
      gif; rs; [intros [= <- <-]; done|]. gif; rs; [intros [= <- <-]; done|]. gif; rs; [intros [= <- <-]; done|].
      intros [= <- <-]. apply Hst; cbn; [|lia].
      set (off := if whence =? SeekCurrent then _ else _) in *. gif; lia.
    + revert Hrun; rs. destruct (by_closed b); rs; [intros [= <- <-]; done|].
      gif; rs; [intros [= <- <-]; done|]. pose proof (zlen_nonneg p) as Hp.
      set (off := if offset >? _ then _ else _). assert (Ho : 0 <= off <= zlen (by_data b)) by (unfold off; gif; lia).
      set (n := if zlen p >? _ then _ else _).
      assert (Hn : 0 <= n <= zlen p /\ off + n <= zlen (by_data b)) by (unfold n; gif; lia).
      rewrite slice_ok by lia. rs. rewrite copy_into_ok; [|lia|rewrite zlen_take, zlen_drop; lia]. rs.
      intros [= <- <-]. done.
    + revert Hrun; rs. destruct (by_closed b); rs; [intros [= <- <-]; done|].
      destruct (by_eof b); rs; [intros [= <- <-]; done|].
      assert (Hem : forall ev, ev_bytes ev = 0 -> total_read (h_log h) <= total_read (h_log h ++ [ev])).
      { intros ev Hev. rewrite total_read_app. pose proof (total_read_nonneg [ev]). lia. }
      rewrite slice_ok by lia. cbn. destruct (ev_write E (h_w h) w _) as [w' [[n err]|pn]]; cbn.
      2:{ intros [= <- <-]. eapply (wf_same h); try done. by apply Hem. }
      destruct (n >=? 0) eqn:H0; cbn.
      2:{ intros [= <- <-]. eapply (wf_same h); try done. by apply Hem. }
      destruct (n <=? _) eqn:H1; cbn.
      2:{ intros [= <- <-]. eapply (wf_same h); try done. by apply Hem. }
      rewrite Hi. cbn. intros [= <- <-].
      eapply wf_store; [exact Hwf|exact Hi|done|done| |done|done| |by apply Hem]; cbn; [done|lia].
    + revert Hrun; rs. destruct (by_closed b) eqn:Hcl; rs; [intros [= <- <-]; done|].
      intros [= <- <-]. rewrite <- Hcl. destruct b; done.
    + revert Hrun; rs; repeat (gif; rs); intros [= <- <-]; auto.
Qed.

(** ** Buffered Bodies *)
Lemma fetch_live bs c cm r m w upto w' evs d cm1 pe :
  live_buf bs c cm r m -> fetch_rel E r w cm upto w' evs d cm1 pe -> upto - buf_end cm <= 2 ^ 62 ->
  buf_end cm1 <= max_i64 -> live_buf bs c cm1 r m.
Proof.
  intros [L1 L2 L3 L4 L5 L6 L7 L8 L9] Hf Hup Hmax.
  pose proof (fetch_rel_facts _ _ _ _ _ _ _ _ _ _ Hf L4 Hup L8 L9) as (F1 & F2 & F3 & F4 & F5 & F6 & F7 & F7b & F8 & F9 & F10).
  assert (Hend : buf_end cm1 = buf_end cm + zlen d) by (unfold buf_end; rewrite F3, F5, zlen_app; lia).
  pose proof (zlen_nonneg d).
  constructor; try congruence; try lia.
  - intros i Hi. specialize (L5 i Hi). lia.
  - pose proof (zlen_nonneg (bc_bytes cm1)). unfold buf_end in *. lia.
  - tauto.
Qed.

(** Advancing handle [i] from [off] to [fin]. *)
Lemma advance_live bs bs' c cm cm2 r m i b off fin :
  live_buf bs c cm r m -> i ∈ m -> boff bs i = off ->
  bs !! i = Some b -> body_common b = Some c -> (exists eof, bs' = <[i := at_offset c fin eof]> bs) ->
  off <= fin <= buf_end cm ->
  (if (off =? bc_start cm) && (0 <? fin - off) then restart bs' m cm cm2 else cm2 = cm) ->
  live_buf bs' c cm2 r m /\ buf_end cm2 = buf_end cm /\ bc_err cm2 = bc_err cm.
Proof.
  intros [L1 L2 L3 L4 L5 L6 L7 L8 L9] Hin Hself Hi Hic (eof & ->) Hfin Hre.
  set (bs' := <[i := at_offset c fin eof]> bs) in *.
  assert (Hli : (i < length bs)%nat) by (by eapply lookup_lt_Some).
  assert (Hrefs : refs bs' c = refs bs c) by (eapply refs_store_same; [done|cbn; congruence]).
  assert (Hb1 : boff bs' i = fin) by (unfold bs', boff; rewrite list_lookup_insert by done; done).
  assert (Hb2 : forall j, j <> i -> boff bs' j = boff bs j) by (intros j Hj; apply boff_insert_ne; congruence).
  destruct ((off =? bc_start cm) && (0 <? fin - off)) eqn:Hc.
  - pose proof (restart_end _ _ _ _ Hre) as Hend.
    destruct Hre as (R1 & R2 & R3 & R4 & R5 & R6 & R7 & R8 & R9).
    split; [|split; done]. constructor; try congruence; try lia.
    + intros j Hj. split; [by apply R8|]. rewrite Hend. destruct (decide (j = i)) as [->|Hne]; [lia|].
      rewrite Hb2 by done. by apply L5.
    + rewrite R9. apply count_at_pos. done.
    + intros He. rewrite R4, Hend. apply L9. congruence.
  - subst cm2. split; [|done]. constructor; try congruence; try lia.
    + intros j Hj. destruct (decide (j = i)) as [->|Hne].
      * rewrite Hb1. specialize (L5 i Hin). lia.
      * rewrite Hb2 by done. by apply L5.
    + rewrite L6. unfold count_at. f_equal. apply filter_ext_in. intros j Hj.
      destruct (decide (j = i)) as [->|Hne]; [|rewrite Hb2 by done; done].
      rewrite Hb1, Hself. specialize (L5 i Hin). lia.
    + exact L9.
Qed.

Lemma buf_other h cs' c cm cm' j bj :
  wf h -> h_c h !! c = Some (CBuffered cm) -> h_b h !! j = Some bj -> body_common bj = Some c ->
  cs' !! c = Some (CBuffered cm') ->
  (bc_err cm <> None -> buf_end cm' = buf_end cm /\ bc_err cm' <> None) ->
  wf_body cs' bj.
Proof.
  intros Hwf Hcm Hbj Hcj Hcm' Herr. pose proof (wf_b _ Hwf _ _ Hbj) as Hw.
  destruct bj as [|bj|bj|bj|bj|bj]; cbn in Hcj, Hw; try done; cbn.
  - destruct (sb_closed bj); [congruence|]. destruct Hw as (_ & c' & y & Hc' & Hy). congruence.
  - destruct (rb_closed bj); [congruence|]. destruct Hw as (_ & c' & y & Hc' & Hy). congruence.
  - destruct (bb_closed bj); [congruence|]. destruct Hw as (Hw & c' & y & Hc' & Hy & He).
    assert (c' = c) as -> by congruence. assert (y = cm) as -> by congruence.
    split; [done|]. exists c, cm'. split_and!; try done. intros Heof. destruct (He Heof) as [H1 H2].
    destruct (Herr H2) as [H3 H4]. split; [congruence|done].
Qed.

Lemma bf_wf fuel h i b f h' o :
  wf h -> h_b h !! i = Some (BBuffered b) -> go_op f ->
  run E h (method fuel (BBuffered b) i f) = (h', o) -> feasible h' -> wf h'.
Proof.
  intros Hwf Hi Hgo Hrun [Hsz Htot]. destruct (bb_closed b) eqn:Hcl.
  { rewrite run_bf_closed in Hrun by done. injection Hrun as <- <-. done. }
  destruct (bf_open_wf h i b Hwf Hi Hcl) as (c & cm & r & m & Ho).
  pose proof (bf_member_self _ _ _ _ _ _ _ Ho) as [Hin Hself].
  pose proof (bf_count_m _ _ _ _ _ _ _ Ho) as Hcm. pose proof (zlen_refs_le (h_b h) c) as Hle.
  pose proof Ho as [bf_b0 bf_ncl0 bf_c0 bf_cm0 bf_live0 bf_eof0]. pose proof bf_live0 as [L1 L2 L3 L4 L5 L6 L7 L8 L9].
  pose proof (wf_t _ Hwf _ _ bf_cm0) as Hbe.
  assert (Hnd : NoDup m) by (rewrite L3; apply NoDup_refs).
  assert (Hlc : (c < length (h_c h))%nat) by (by eapply lookup_lt_Some).
  assert (Hli : (i < length (h_b h))%nat) by (by eapply lookup_lt_Some).
  assert (Hsz0 : zlen (h_b h) < 2 ^ 31 /\ total_read (h_log h) <= total_read (h_log h')).
  { assert (Hex : exec E fuel h (Call i f) = (h', o)) by (unfold exec, cmd_prog; rewrite Hi; done).
    pose proof (exec_mono _ _ _ _ _ Hex). pose proof (exec_frame E _ _ _ _ _ Hex) as [Hl _].
    split; [unfold zlen in *; lia|lia]. }
  destruct Hsz0 as [Hsz0 Hmono].
  destruct f; cbn [method] in Hrun.
  - rewrite run_rint, (run_bf_BytesRemaining _ _ _ _ _ _ _ _ Ho) in Hrun. injection Hrun as <- <-. done.
  - cbn in Hgo. unfold max_slice in Hgo. pose proof (zlen_nonneg p) as Hp0.
    rewrite run_rread in Hrun.
    pose proof (run_bf_Read E fuel h i b c cm r m p Hwf Ho Hsz0 ltac:(lia) ltac:(lia)) as HR.
    destruct (bb_eof b) eqn:Heof. { rewrite HR in Hrun. injection Hrun as <- <-. done. }
    destruct HR as (w' & evs & d & cm1 & pe & Hf & HR).
    specialize (L5 i Hin) as Hoff. rewrite Hself in Hoff.
    pose proof (fetch_rel_facts _ _ _ _ _ _ _ _ _ _ Hf L4 ltac:(lia) L8 L9) as (F1 & F2 & F3 & F4 & F5 & F6 & F7 & F7b & F8 & F9 & F10).
    assert (Hend : buf_end cm1 = buf_end cm + zlen d) by (unfold buf_end; rewrite F3, F5, zlen_app; lia).
    (* a call that only fetched *)
    assert (Hfail : total_read (h_log h ++ evs) <= 2 ^ 62 -> wf (heap_cwl h (<[c := CBuffered cm1]> (h_c h)) w' evs)).
    { intros Ht. rewrite total_read_app, F6 in Ht.
      assert (Hlive : live_buf (h_b h) c cm1 r m).
      { eapply fetch_live; try done; unfold max_i64; lia. }
      eapply (wf_upd h _ i (BBuffered b) (BBuffered b) c _ (CBuffered cm1)); try done.
      - by left.
      - cbn. by rewrite list_insert_id.
      - cbn. rewrite bf_ncl0. split; [lia|]. exists c, cm1. split; [done|]. split; [by apply list_lookup_insert|].
        rewrite Heof. done.
      - cbn [wf_common h_b heap_cwl set_b set_c emit]. split; [|intros _; by exists r, m]. intros Hnil.
        pose proof (refs_pos (h_b h) c i _ Hi bf_c0) as Hp. rewrite Hnil in Hp. unfold zlen in Hp. cbn in Hp. lia.
      - intros j bj Hj Hbj Hcj. eapply (buf_other h _ c cm cm1); try done.
        + cbn. by apply list_lookup_insert.
        + intros He. rewrite (F9 He). done.
      - intros y [= <-]. cbn. rewrite total_read_app. lia.
      - cbn. rewrite total_read_app. pose proof (zlen_nonneg d). lia. }
    assert (Hgood : (pe = PDone \/ exists e, pe = PErr e) ->
      let fin := Z.min (bb_offset b + zlen p) (buf_end cm1) in
      let eof := bb_offset b + zlen p >? buf_end cm1 in
      let bs' := <[i := at_offset c fin eof]> (h_b h) in
      forall cm2, (if (bb_offset b =? bc_start cm) && (0 <? fin - bb_offset b) then restart bs' m cm1 cm2 else cm2 = cm1) ->
      total_read (h_log h ++ evs) <= 2 ^ 62 ->
      wf (set_b (heap_cwl h (<[c := CBuffered cm2]> (h_c h)) w' evs) bs')).
    { intros Hpe fin eof bs' cm2 Hre Ht. rewrite total_read_app, F6 in Ht. pose proof (zlen_nonneg d) as Hd.
      assert (Hlive : live_buf (h_b h) c cm1 r m).
      { eapply fetch_live; try done; unfold max_i64; lia. }
      assert (Hfin : bb_offset b <= fin <= buf_end cm1) by (unfold fin; lia).
      destruct (advance_live (h_b h) bs' c cm1 cm2 r m i (BBuffered b) (bb_offset b) fin Hlive Hin Hself Hi bf_c0 ltac:(by eexists) Hfin)
        as (Hl2 & He2 & Hr2).
      { rewrite F3. done. }
      eapply (wf_upd h _ i (BBuffered b) (at_offset c fin eof) c _ (CBuffered cm2)); try done.
      - by left.
      - cbn. split; [lia|]. exists c, cm2. split; [done|]. split; [by apply list_lookup_insert|].
        intros Heq. unfold eof in Heq. rewrite Hr2, He2. split; [unfold fin; lia|]. apply F10; [done|lia].
      - cbn [wf_common h_b heap_cwl set_b set_c emit]. split; [|intros _; by exists r, m]. intros Hnil.
        assert (Hrefs : refs bs' c = refs (h_b h) c) by (eapply refs_store_same; [done|cbn; congruence]).
        pose proof (refs_pos (h_b h) c i _ Hi bf_c0) as Hp. rewrite <- Hrefs, Hnil in Hp. unfold zlen in Hp. cbn in Hp. lia.
      - intros j bj Hj Hbj Hcj. eapply (buf_other h _ c cm cm2); try done.
        + cbn. by apply list_lookup_insert.
        + intros He. rewrite He2, Hr2, (F9 He). done.
      - intros y [= <-]. cbn. rewrite total_read_app. lia.
      - cbn. rewrite total_read_app. lia. }
    destruct pe as [|e| |].
    + destruct HR as (cm2 & Hre & Hn & HR). rewrite HR in Hrun. injection Hrun as <- <-. apply Hgood; auto.
    + destruct HR as (cm2 & Hre & Hn & HR). rewrite HR in Hrun. injection Hrun as <- <-. apply Hgood; eauto.
    + rewrite HR in Hrun. injection Hrun as <- <-. apply Hfail. done.
    + rewrite HR in Hrun. injection Hrun as <- <-. apply Hfail. done.
  - rewrite run_rerr in Hrun. pose proof (run_bf_Close E h i b c cm r m Hwf Ho Hsz0) as HC. cbv zeta in HC.
    assert (Hdel : refs (<[i := closed_buffered]> (h_b h)) c = filter (λ j, j ≠ i) (refs (h_b h) c)).
    { eapply refs_store_none; done. }
    assert (Hdm : set_del i m ≡ₚ refs (<[i := closed_buffered]> (h_b h)) c).
    { rewrite Hdel. unfold set_del. rewrite L3. done. }
    pose proof (set_del_nodup i m Hnd Hin) as Hlen.
    destruct (zlen m >? 1) eqn:Hm1.
    + destruct HC as (cm' & Hre & HC). rewrite HC in Hrun. injection Hrun as <- <-.
      set (bs' := <[i := closed_buffered]> (h_b h)) in *.
      assert (Hb2 : forall j, j ∈ set_del i m -> boff bs' j = boff (h_b h) j).
      { intros j Hj. apply elem_of_list_filter in Hj as [Hj _]. apply boff_insert_ne. congruence. }
      assert (Hlive : live_buf bs' c cm' r (set_del i m) /\ buf_end cm' = buf_end cm /\ bc_err cm' = bc_err cm).
      { destruct (bb_offset b =? bc_start cm) eqn:Hst.
        - pose proof (restart_end _ _ _ _ Hre) as Hend. change (buf_end (with_bodies cm _)) with (buf_end cm) in Hend.
          destruct Hre as (R1 & R2 & R3 & R4 & R5 & R6 & R7 & R8 & R9). cbn in R1, R2, R3, R4, R5, R6.
          split; [|done]. constructor; try congruence; try lia.
          + intros j Hj. rewrite Hb2 by done. split; [by apply R8|]. rewrite Hend. apply L5.
            by apply elem_of_list_filter in Hj as [_ Hj].
          + rewrite R9. symmetry. by apply count_at_ext.
          + rewrite R9. apply count_at_pos. done.
          + intros He. rewrite R4, Hend. apply L9. congruence.
        - subst cm'. split; [|done]. constructor; cbn; try done.
          + intros j Hj. rewrite Hb2 by done. apply L5. by apply elem_of_list_filter in Hj as [_ Hj].
          + rewrite L6, (count_at_ext (h_b h) bs') by done. rewrite count_at_del by done.
            rewrite Hself, decide_False by lia. lia. }
      destruct Hlive as (Hlive & He2 & Hr2).
      eapply (wf_upd h _ i (BBuffered b) closed_buffered c _ (CBuffered cm')); try done.
      * by right.
      * cbn [wf_common h_b heap_cwl set_b set_c emit]. split; [|intros _; by exists r, (set_del i m)]. intros Hnil.
        fold bs' in Hdm. rewrite Hnil in Hdm. apply Permutation_nil_r in Hdm. rewrite Hdm in Hlen. unfold zlen at 1 in Hlen. cbn in Hlen. lia.
      * intros j bj Hj Hbj Hcj. eapply (buf_other h _ c cm cm'); try done.
        -- cbn. by apply list_lookup_insert.
        -- intros He. rewrite He2, Hr2. done.
      * intros y [= <-]. cbn. lia.
    + assert (Hm0 : 1 <= zlen m). { pose proof (zlen_pos_ne m ltac:(intros ->; by apply elem_of_nil in Hin)). lia. }
      assert (Hnil : refs (<[i := closed_buffered]> (h_b h)) c = []).
      { apply Permutation_nil_r. rewrite <- Hdm. destruct (set_del i m); [done|]. rewrite zlen_cons in Hlen.
        pose proof (zlen_nonneg l). lia. }
      assert (Hgo2 : forall h2, h_b h2 = <[i := closed_buffered]> (h_b h) -> h_c h2 = <[c := CBuffered (dead_buffered cm)]> (h_c h) ->
        total_read (h_log h) <= total_read (h_log h2) -> wf h2).
      { intros h2 Eb Ec Hlog.
        eapply (wf_upd h _ i (BBuffered b) closed_buffered c _ (CBuffered (dead_buffered cm))); try done.
        - by right.
        - rewrite Eb. cbn [wf_common]. rewrite Hnil. done.
        - intros j bj Hj Hbj Hcj. exfalso.
          assert (j ∈ refs (<[i := closed_buffered]> (h_b h)) c) as Hjr.
          { apply elem_refs. exists bj. rewrite list_lookup_insert_ne by done. done. }
          rewrite Hnil in Hjr. by apply elem_of_nil in Hjr.
        - intros y [= <-]. unfold buf_end. cbn. unfold zlen. cbn. pose proof (total_read_nonneg (h_log h2)). lia. }
      rewrite HC in Hrun. destruct (is_closer (ev_caps E r)).
      * destruct (ev_close E (h_w h) r) as [w err]. injection Hrun as <- <-. apply Hgo2; try done.
      * injection Hrun as <- <-. apply Hgo2; done.
  - cbn in Hrun. injection Hrun as <- <-. done.
  - cbn in Hrun. injection Hrun as <- <-. done.
  - cbn in Hrun. injection Hrun as <- <-. done.
  - rewrite run_rbody, (run_bf_Copy _ _ _ _ _ _ _ _ Hwf Ho) in Hrun. injection Hrun as <- <-.
    cbn in Hsz. rewrite zlen_app in Hsz. unfold zlen at 2 in Hsz. cbn in Hsz.
    set (k := length (h_b h)). set (bs' := h_b h ++ [BBuffered b]).
    assert (Hk : boff bs' k = bb_offset b).
    { unfold boff, bs', k. rewrite lookup_app_r, Nat.sub_diag by lia. done. }
    assert (Hold : forall j, j ∈ m -> boff bs' j = boff (h_b h) j).
    { intros j Hj. apply (refs_boff_app _ c). by rewrite <- L3. }
    specialize (L5 i Hin) as Hoff. rewrite Hself in Hoff.
    assert (Hcnt : count_at bs' (bc_start cm) (m ++ [k]) =
       count_at (h_b h) (bc_start cm) m + (if bb_offset b =? bc_start cm then 1 else 0)).
    { unfold count_at. rewrite filter_app, zlen_app. f_equal.
      - f_equal. apply filter_ext_in. intros j Hj. rewrite Hold by done. done.
      - rewrite filter_cons, filter_nil, Hk. destruct (decide _), (bb_offset b =? bc_start cm) eqn:?; try done; lia. }
    pose proof (count_at_le (h_b h) (bc_start cm) m) as Hcl2.
    eapply (wf_copy h _ (BBuffered b) c _ (CBuffered (ref_common cm (m ++ [k]) (bb_offset b)))); try done; cbn [h_b h_c h_log set_c set_b].
    + cbn. rewrite bf_ncl0. split; [lia|]. eexists c, _. split; [done|]. split; [by apply list_lookup_insert|]. done.
    + cbn [wf_common]. fold bs'. 
      assert (Hrn : refs bs' c = refs (h_b h) c ++ [k]) by (unfold bs'; rewrite refs_new, decide_True by done; done).
      rewrite Hrn. split; [intros Hnil; by apply app_eq_nil in Hnil as [_ ?]|].
      intros _. exists r, (m ++ [k]). constructor; cbn; try done.
      * rewrite Hrn, L3. done.
      * intros j Hj. apply elem_of_app in Hj as [Hj|Hj].
        -- rewrite Hold by done. by apply L5.
        -- apply elem_of_list_singleton in Hj as ->. rewrite Hk. done.
      * rewrite Hcnt, <- L6. gif; [apply wrap32_id|]; lia.
      * gif; [rewrite wrap32_id|]; lia.
    + intros j bj Hbj Hcj. eapply (buf_other h _ c cm); [done..|by apply list_lookup_insert|done].
    + intros y [= <-]. cbn. change (buf_end (ref_common _ _ _)) with (buf_end cm). lia.
  - rewrite run_rreader, (run_bf_Unwrap _ _ _ _ _ _ _ _ Ho) in Hrun. injection Hrun as <- <-. done.
Qed.

(** ** The constructor for Readers *)
Inductive lenres := LLen (l : Z) | LErr (e : error) | LBad.
Definition find_len (w : W) (r : rid) (len : Z) : W * list event * lenres :=
  if len >=? 0 then (w, [], LLen len) else
  if cp_file (ev_caps E r) then
    let '(w1, (n, err)) := ev_stat E w r in
    (w1, [EvStat r n err],
     match err with Some e => LErr (StatFailed e) | None => if n >=? 0 then LLen n else LBad end)
  else if cp_seeker (ev_caps E r) then
    let '(w1, (n, err)) := ev_seek E w r 0 SeekEnd in
    match err with
    | Some e => (w1, [EvSeek r 0 SeekEnd n err], LErr (SeekEndFailed e))
    | None =>
        if n >=? 0 then
          let '(w2, (n2, err2)) := ev_seek E w1 r 0 SeekStart in
          (w2, [EvSeek r 0 SeekEnd n err; EvSeek r 0 SeekStart n2 err2],
           match err2 with Some e => LErr (SeekStartFailed e) | None => LLen n end)
        else (w1, [EvSeek r 0 SeekEnd n err], LBad)
    end
  else (w, [], LLen (-1)).

Definition new_pair (c i : nat) (r : rid) (len : Z) : bobj * cobj :=
  if cp_readerat (ev_caps E r) && (len >=? 0) then
    (BReaderAt {| rb_common := Some c; rb_err := None; rb_offset := 0; rb_closed := false |},
     CReaderAt {| rc_r := Some r; rc_at := Some r; rc_length := len; rc_refcnt := 1 |})
  else if cp_seeker (ev_caps E r) && (len >=? 0) then
    (BSeeker {| sb_common := Some c; sb_err := None; sb_offset := 0; sb_closed := false |},
     CSeeker {| sc_s := Some r; sc_length := len; sc_refcnt := 1 |})
  else
    (BBuffered {| bb_common := Some c; bb_offset := 0; bb_eof := false; bb_closed := false |},
     CBuffered {| bc_r := Some r; bc_err := None; bc_bodies := Some [i]; bc_bytes := []; bc_length := len;
                  bc_start := 0; bc_refcnt := 1 |}).

Definition heap_wl h (w : W) (evs : list event) : heap W :=
  {| h_b := h_b h; h_c := h_c h; h_w := w; h_log := h_log h ++ evs |}.

Lemma run_new_pair h r len :
  let bc := new_pair (length (h_c h)) (length (h_b h)) r len in
  run E h
    (if cp_readerat (ev_caps E r) && (len >=? 0) then
        c <- perform (NewC (CReaderAt {| rc_r := Some r; rc_at := Some r; rc_length := len; rc_refcnt := 0 |})) ;;
        b <- perform (NewB (BReaderAt {| rb_common := Some c; rb_err := None; rb_offset := 0; rb_closed := false |})) ;;
        readerAt_ref c ;;;
        Ret (inl b)
      else if cp_seeker (ev_caps E r) && (len >=? 0) then
        c <- perform (NewC (CSeeker {| sc_s := Some r; sc_length := len; sc_refcnt := 0 |})) ;;
        b <- perform (NewB (BSeeker {| sb_common := Some c; sb_err := None; sb_offset := 0; sb_closed := false |})) ;;
        seeker_ref c ;;;
        Ret (inl b)
      else
        c <- perform (NewC (CBuffered {| bc_r := Some r; bc_err := None; bc_bodies := Some []; bc_bytes := [];
                                         bc_length := len; bc_start := 0; bc_refcnt := 0 |})) ;;
        b <- perform (NewB (BBuffered {| bb_common := Some c; bb_offset := 0; bb_eof := false; bb_closed := false |})) ;;
        buffered_ref c b ;;;
        Ret (inl b)) =
  (set_b (set_c h (h_c h ++ [snd bc])) (h_b h ++ [fst bc]), ORet (inl (length (h_b h)) : nat + error)).
Proof.
  cbv zeta. unfold new_pair.
  assert (Hc : forall x, (h_c h ++ [x]) !! length (h_c h) = Some x) by (intros x; rewrite lookup_app_r, Nat.sub_diag by lia; done).
  assert (Hb : forall x, (h_b h ++ [x]) !! length (h_b h) = Some x) by (intros x; rewrite lookup_app_r, Nat.sub_diag by lia; done).
  assert (Hi : forall x y, <[length (h_c h) := y]> (h_c h ++ [x]) = h_c h ++ [y]).
  { intros x y. rewrite insert_app_r_alt, Nat.sub_diag by lia. done. }
  destruct (cp_readerat _ && _); [|destruct (cp_seeker _ && _)];
    unfold readerAt_ref, seeker_ref, buffered_ref; cbn; rewrite !Hc; cbn; rewrite ?Hb; cbn; rewrite ?Hc; cbn; rewrite Hi; done.
Qed.

Lemma run_From h r len :
  run E h (FromReaderAndLength r len) =
  let '(w, evs, x) := find_len (h_w h) r len in
  match x with
  | LBad => (heap_wl h w evs, OPanic PAssert)
  | LErr e => (heap_wl h w evs, ORet (inr e))
  | LLen l =>
      let bc := new_pair (length (h_c h)) (length (h_b h)) r l in
      (set_b (set_c (heap_wl h w evs) (h_c h ++ [snd bc])) (h_b h ++ [fst bc]), ORet (inl (length (h_b h))))
  end.
Proof.
  assert (Hnil : heap_wl h (h_w h) [] = h) by (unfold heap_wl; rewrite app_nil_r; by destruct h).
  unfold FromReaderAndLength, find_len. rs.
  destruct (len >=? 0) eqn:Hl.
  { assert (len <? 0 = false) as Hl' by lia. rewrite Hl'. cbv beta iota. rewrite Hl', andb_false_r. rs.
    rewrite Hl', andb_false_r. rs. rewrite run_new_pair. rewrite Hnil. done. }
  assert (len <? 0 = true) as Hl' by lia. rewrite Hl'. cbv beta iota. change (-1 <? 0) with true. rewrite andb_true_r.
  assert (Hstat : forall h0, run E h0 (perform (CallStat r)) =
    let '(w, (n, err)) := ev_stat E (h_w h0) r in (emit h0 w (EvStat r n err), ORet (n, err))).
  { intros h0. cbn. destruct (ev_stat E (h_w h0) r) as [? [? ?]]. done. }
  assert (Hseek : forall h0 off wh, run E h0 (perform (CallSeek r off wh)) =
    let '(w, (n, err)) := ev_seek E (h_w h0) r off wh in (emit h0 w (EvSeek r off wh n err), ORet (n, err))).
  { intros h0 off wh. cbn. destruct (ev_seek E (h_w h0) r off wh) as [? [? ?]]. done. }
  destruct (cp_file (ev_caps E r)).
  - rs. rewrite Hstat. destruct (ev_stat E (h_w h) r) as [w1 [n [e|]]]; rs; [done|].
    destruct (n >=? 0) eqn:Hn; [|done]. rs.
    assert (n <? 0 = false) as -> by lia. rewrite andb_false_r. rs.
    change (emit h w1 (EvStat r n None)) with (heap_wl h w1 [EvStat r n None]). rewrite run_new_pair. done.
  - rs. change (-1 <? 0) with true. rewrite andb_true_r. destruct (cp_seeker (ev_caps E r)) eqn:Hs.
    + rs. rewrite Hseek. destruct (ev_seek E (h_w h) r 0 SeekEnd) as [w1 [n [e|]]]; rs; [done|].
      destruct (n >=? 0) eqn:Hn; [|done]. rs. rewrite Hseek. cbn [emit h_w].
      destruct (ev_seek E w1 r 0 SeekStart) as [w2 [n2 [e|]]]; rs.
      * unfold heap_wl, emit. cbn. rewrite <- app_assoc. done.
      * rewrite <- Hs. set (h1 := emit _ _ _).
        assert (h1 = heap_wl h w2 [EvSeek r 0 SeekEnd n None; EvSeek r 0 SeekStart n2 None]) as ->.
        { unfold h1, heap_wl, emit. cbn. rewrite <- app_assoc. done. }
        rewrite run_new_pair. done.
    + rs. pose proof (run_new_pair h r (-1)) as Hp. cbv zeta in Hp. rewrite Hs in Hp. rewrite Hp, Hnil. done.
Qed.

Lemma find_len_range w r len w' evs l :
  go_env E -> in_i64 len -> find_len w r len = (w', evs, LLen l) -> l = -1 \/ 0 <= l <= max_i64.
Proof.
  intros [G1 G2] Hl. unfold find_len. gif; [intros [= <- <- <-]; unfold in_i64 in Hl; lia|].
  gif.
  - specialize (G1 w r). destruct (ev_stat E w r) as [w1 [n [e|]]]; [done|]. cbn in G1.
    gif; [|done]. intros [= <- <- <-]. unfold in_i64 in G1. lia.
  - gif; [|intros [= <- <- <-]; lia]. specialize (G2 w r 0 SeekEnd).
    destruct (ev_seek E w r 0 SeekEnd) as [w1 [n [e|]]]; [done|]. cbn in G2. gif; [|done].
    destruct (ev_seek E w1 r 0 SeekStart) as [w2 [n2 [e|]]]; [done|].
    intros [= <- <- <-]. unfold in_i64 in G2. lia.
Qed.

Lemma from_wf h r len h' o :
  go_env E -> in_i64 len -> wf h -> run E h (FromReaderAndLength r len) = (h', o) -> wf h'.
Proof.
  intros Hge Hlen Hwf. rewrite run_From. destruct (find_len (h_w h) r len) as [[w evs] x] eqn:Hf.
  assert (Hwl : wf (heap_wl h w evs)).
  { eapply (wf_same h); try done. cbn. rewrite total_read_app. pose proof (total_read_nonneg evs). lia. }
  destruct x as [l|e|]; intros [= <- <-]; try done.
  apply find_len_range in Hf; [|done..].
  set (c := length (h_c h)). set (i := length (h_b h)). set (bc := new_pair c i r l).
  assert (Hnr : refs (h_b h) c = []) by (apply refs_dangling; [done|unfold c; lia]).
  assert (Hcc : body_common (fst bc) = Some c) by (unfold bc, new_pair; repeat gif; done).
  assert (Hrefs : refs (h_b h ++ [fst bc]) c = [i]) by (rewrite refs_new, Hnr, decide_True by done; done).
  assert (Hlc : forall x, (h_c h ++ [x]) !! c = Some x) by (intros x; unfold c; rewrite lookup_app_r, Nat.sub_diag by lia; done).
  eapply (wf_newbc (heap_wl h w evs) _ (fst bc) (snd bc)); try done; cbn [h_b h_c set_b set_c heap_wl h_log].
  - unfold bc, new_pair. repeat gif; cbn.
    + split; [unfold max_i64; lia|]. exists c. eexists. split; [done|]. apply Hlc.
    + split; [unfold max_i64; lia|]. exists c. eexists. split; [done|]. apply Hlc.
    + split; [lia|]. exists c. eexists. split; [done|]. split; [apply Hlc|]. done.
  - fold c. assert (Hne : [i] <> []) by done.
    unfold bc, new_pair in *. repeat gif; cbn [fst snd] in *; cbn [wf_common]; rewrite Hrefs; cbn; try (split_and!; try done; try lia; eauto).
    intros _. exists r, [i]. constructor; cbn; try done; try lia.
    + by rewrite Hrefs.
    + intros j Hj. apply elem_of_list_singleton in Hj as ->. unfold boff, i. rewrite lookup_app_r, Nat.sub_diag by lia. cbn. unfold buf_end, zlen; cbn. lia.
    + unfold count_at. rewrite filter_cons, decide_True, filter_nil; [done|].
      unfold boff, i. rewrite lookup_app_r, Nat.sub_diag by lia. done.
  - intros y Hy. unfold bc, new_pair in Hy. repeat (revert Hy; gif; intros Hy); cbn in Hy; try done. injection Hy as <-.
    unfold buf_end. cbn. unfold zlen. cbn. apply total_read_nonneg.
Qed.

(** ** All commands *)
Theorem exec_wf fuel h c h' o :
  go_env E -> wf h -> go_cmd c -> exec E fuel h c = (h', o) -> feasible h' -> wf h'.
Proof.
  intros Hge Hwf Hgo Hex Hfs. unfold exec in Hex.
  assert (Hempty : wf (set_b h (h_b h ++ [BEmpty {| em_eof := false; em_closed := false |}]))).
  { by eapply (wf_newb h _ (BEmpty _)). }
  destruct c as [i f| | |d|s|r|r len|b]; cbn [cmd_prog go_cmd] in *.
  - destruct (h_b h !! i) as [b|] eqn:Hi; [|cbn in Hex; by injection Hex as <- <-].
    destruct b as [|b|b|b|b|b].
    + eapply mem_wf; [exact Hwf|exact Hi|by left|exact Hgo|exact Hex].
    + eapply mem_wf; [exact Hwf|exact Hi|right; left; by eexists|exact Hgo|exact Hex].
    + eapply mem_wf; [exact Hwf|exact Hi|right; right; by eexists|exact Hgo|exact Hex].
    + eapply sk_wf; [exact Hwf|exact Hi|exact Hgo|exact Hex|apply Hfs].
    + eapply ra_wf; [exact Hwf|exact Hi|exact Hgo|exact Hex|apply Hfs].
    + eapply bf_wf; [exact Hwf|exact Hi|exact Hgo|exact Hex|exact Hfs].
  - cbn in Hex. by injection Hex as <- <-.
  - cbn in Hex. by injection Hex as <- <-.
  - unfold FromBytes in Hex. destruct (zlen d =? 0); cbn in Hex; injection Hex as <- <-; [done|].
    pose proof (zlen_nonneg d). eapply (wf_newb h _ (BBytes _)); try done. cbn. unfold max_slice, max_i64 in *. lia.
  - unfold FromString in Hex. destruct (Z.of_nat (String.length s) =? 0); cbn in Hex; injection Hex as <- <-; [done|].
    eapply (wf_newb h _ (BBytes _)); try done. cbn.
    assert (zlen (list_ascii_of_string s : bytes) = Z.of_nat (String.length s)).
    { unfold zlen. f_equal. clear. induction s; cbn; congruence. }
    unfold max_slice, max_i64, bytes in *. lia.
  - unfold FromReader, rfrom in Hex. rewrite run_bind in Hex. destruct (run E h (FromReaderAndLength r (-1))) as [h1 o1] eqn:Hr.
    assert (wf h1) by (eapply (from_wf h); [done| |done|exact Hr]; unfold in_i64, min_i64, max_i64; lia).
    destruct o1 as [[]| |]; cbn in Hex; by injection Hex as <- <-.
  - unfold rfrom in Hex. rewrite run_bind in Hex. destruct (run E h (FromReaderAndLength r len)) as [h1 o1] eqn:Hr.
    assert (wf h1) by (eapply (from_wf h); [done|done|done|exact Hr]).
    destruct o1 as [[]| |]; cbn in Hex; by injection Hex as <- <-.
  - destruct (h_b h !! b); cbn in Hex; by injection Hex as <- <-.
Qed.

Lemma history_feasible fuel cs : forall h h' os, history E fuel h cs = (h', os) -> feasible h' -> feasible h.
Proof.
  induction cs as [|c cs IH]; intros h h' os H Hf; cbn in H; [by injection H as <- <-|].
  destruct (exec E fuel h c) as [h1 o] eqn:Hex.
  assert (feasible h1); [|by eapply exec_feasible].
  destruct o; [destruct (history E fuel h1 cs) eqn:Hh..|]; injection H as <- <-; eauto.
Qed.

Lemma history_wf fuel cs : forall h h' os,
  go_env E -> wf h -> Forall go_cmd cs -> history E fuel h cs = (h', os) -> feasible h' -> wf h'.
Proof.
  induction cs as [|c cs IH]; intros h h' os Hge Hwf Hgo H Hf; cbn in H; [by injection H as <- <-|].
  inversion Hgo as [|? ? Hc Hcs]; subst.
  destruct (exec E fuel h c) as [h1 o] eqn:Hex.
  assert (Hf1 : feasible h1).
  { destruct o; [destruct (history E fuel h1 cs) eqn:Hh..|]; injection H as <- <-; eauto using history_feasible. }
  assert (wf h1) by (eapply exec_wf; eauto).
  destruct o; [destruct (history E fuel h1 cs) eqn:Hh..|]; injection H as <- <-; eauto.
Qed.

Theorem reaches_wf fuel h : go_env E -> reaches E fuel h -> wf h /\ feasible h.
Proof.
  intros Hge (w & cs & os & Hgo & Hh & Hf). split; [|done]. eapply history_wf; eauto. apply wf_initial.
Qed.

End Preserve.
