(** * readerAtBody: what each method does (proofs) *)
From stdpp Require Import gmap.
From Coq Require Import ZifyBool.
From Verif Require Export WfUpd.

(** A store through an index of which only the value is known. *)
Lemma set_c_id {W} (h : heap W) c x : h_c h !! c = Some x -> set_c h (<[c := x]> (h_c h)) = h.
Proof. intros H. unfold set_c. rewrite list_insert_id by done. by destruct h. Qed.
Lemma set_b_id {W} (h : heap W) i x : h_b h !! i = Some x -> set_b h (<[i := x]> (h_b h)) = h.
Proof. intros H. unfold set_b. rewrite list_insert_id by done. by destruct h. Qed.

Section ReaderAt.
Context {W : Type} (E : env W).
Implicit Types h : heap W.

(** One call of ReadAt on the Reader. *)
Definition ra_rd (r : rid) h (px : bytes) (off : Z) : heap W * out rdres :=
  let '(w, (n, q, e)) := ev_readat E (h_w h) r px off in
  (emit h w (EvReadAt r (zlen px) off n e),
   if (0 <=? n) && (n <=? zlen px) then ORet (n, fit px q, e) else OPanic PAssert).

Lemma run_ra_readAt h cm r px off :
  rc_at cm = Some r -> run E h (readerAt_readAt cm px off) = ra_rd r h px off.
Proof.
  intros Hr. unfold readerAt_readAt, ra_rd. rs. rewrite Hr. cbn.
  destruct (ev_readat E (h_w h) r px off) as [w [[n q] e]]. cbn.
  replace (n >=? 0) with (0 <=? n) by lia.
  destruct (0 <=? n); cbn; [|done]. destruct (n <=? zlen px); done.
Qed.

(** Properties of [ra_rd] that hold for every Reader. *)
Lemma ra_rd_spec r h px off h1 o :
  ra_rd r h px off = (h1, o) ->
  h_b h1 = h_b h /\ h_c h1 = h_c h /\
  (exists n e, h_log h1 = h_log h ++ [EvReadAt r (zlen px) off n e] /\
     ((0 <= n <= zlen px /\ exists q, o = ORet (n, q, e) /\ length q = length px) \/
      (~ 0 <= n <= zlen px /\ o = OPanic PAssert))).
Proof.
  unfold ra_rd. destruct (ev_readat E (h_w h) r px off) as [w [[n q] e]].
  intros [= <- <-]. cbn. do 2 (split; [done|]). exists n, e. split; [done|].
  destruct ((0 <=? n) && (n <=? zlen px)) eqn:Hn; [left|right]; (split; [lia|]); [|done].
  eexists; split; [done|]. apply fit_length.
Qed.

Record ra_open h i b c cm r : Prop := {
  ra_b : h_b h !! i = Some (BReaderAt b);
  ra_ncl : rb_closed b = false;
  ra_c : rb_common b = Some c;
  ra_cm : h_c h !! c = Some (CReaderAt cm);
  ra_r : rc_r cm = Some r;
  ra_at : rc_at cm = Some r;
  ra_off : 0 <= rb_offset b <= max_i64;
  ra_len : 0 <= rc_length cm <= max_i64
}.

Definition ra_clamp (off len : Z) : Z := if off >? len then len else off.

(** The reading part common to Read and ReadAt. *)
Definition ra_fetch r h (p : bytes) (len off : Z) : heap W * out rdres :=
  let avail := len - off in
  let x := if zlen p >? avail then avail else zlen p in
  let fin '(n, p', e) := (n, p', match e with None => if zlen p >? avail then Some EOF else None | Some e => Some e end) in
  if avail >? 0 then
    match ra_rd r h (take (Z.to_nat x) p) off with
    | (h1, ORet (n, q, e)) => (h1, ORet (fin (n, q ++ drop (Z.to_nat x) p, e)))
    | (h1, OPanic e) => (h1, OPanic e)
    | (h1, OSpin) => (h1, OSpin)
    end
  else (h, ORet (fin (0, p, None))).

Lemma ra_fetch_spec r h p len off h1 o :
  0 <= off <= len ->
  ra_fetch r h p len off = (h1, o) ->
  h_b h1 = h_b h /\ h_c h1 = h_c h /\
  ((h1 = h /\ len = off /\ o = ORet (0, p, if zlen p >? 0 then Some EOF else None)) \/
   (off < len /\ exists n e, h_log h1 = h_log h ++ [EvReadAt r (Z.min (zlen p) (len - off)) off n e] /\
     ((0 <= n <= Z.min (zlen p) (len - off) /\
       exists p' e', o = ORet (n, p', e') /\ length p' = length p /\
         drop (Z.to_nat (len - off)) p' = drop (Z.to_nat (len - off)) p /\
         e' = match e with None => if zlen p >? len - off then Some EOF else None | Some e => Some e end) \/
      (~ 0 <= n <= Z.min (zlen p) (len - off) /\ o = OPanic PAssert)))).
Proof.
  intros Hoff. unfold ra_fetch. set (avail := len - off).
  set (x := if zlen p >? avail then avail else zlen p).
  pose proof (zlen_nonneg p) as Hp.
  assert (Hx : x = Z.min (zlen p) avail) by (unfold x; gif; lia).
  assert (Hpx : zlen (take (Z.to_nat x) p) = x) by (rewrite zlen_take; lia).
  destruct (avail >? 0) eqn:Hav.
  - destruct (ra_rd r h (take (Z.to_nat x) p) off) as [h' o'] eqn:Hrd.
    pose proof (ra_rd_spec _ _ _ _ _ _ Hrd) as (Hb & Hc & n & e & Hlog & Hcase). rewrite Hpx in *.
    destruct Hcase as [(Hn & q & -> & Hq)|(Hn & ->)]; intros [= <- <-].
    + do 2 (split; [done|]). right. split; [lia|]. exists n, e. rewrite <- Hx. split; [done|]. left. split; [lia|].
      eexists _, _. split; [done|]. assert (Hql : length q = Z.to_nat x) by (unfold zlen in *; lia).
      split_and!; [| |done].
      * rewrite app_length, drop_length, Hql. unfold zlen in *. lia.
      * rewrite drop_app_ge by (unfold zlen in *; lia).
        rewrite drop_drop. f_equal. unfold zlen in *. lia.
    + do 2 (split; [done|]). right. split; [lia|]. exists n, e. rewrite <- Hx. split; [done|]. right. done.
  - intros [= <- <-]. do 2 (split; [done|]). left. assert (Ha : avail = 0) by lia. rewrite Ha.
    split_and!; try done. unfold avail in Ha. lia.
Qed.

Lemma run_ra_BytesRemaining h i b c cm r :
  ra_open h i b c cm r ->
  run E h (readerAt_BytesRemaining i) = (h, ORet (Z.max 0 (rc_length cm - rb_offset b))).
Proof.
  intros []. unfold readerAt_BytesRemaining, readerAtCommon_BytesRemaining. rs. rewrite ra_ncl0. rs.
  rewrite ra_c0. rs. gif; rs; do 2 f_equal; lia.
Qed.

Lemma run_ra_Read h i b c cm r p :
  ra_open h i b c cm r ->
  run E h (readerAt_Read i p) =
  match rb_err b with
  | Some e => (h, ORet (0, p, Some e))
  | None =>
      let off := ra_clamp (rb_offset b) (rc_length cm) in
      match ra_fetch r h p (rc_length cm) off with
      | (h1, ORet (n, p', e)) =>
          let h2 := set_b h1 (<[i := BReaderAt {| rb_common := Some c; rb_err := e; rb_offset := off + n; rb_closed := false |}]> (h_b h1)) in
          let h3 := match e with
                    | Some _ =>
                        if off + n <? rc_length cm
                        then set_c h2 (<[c := CReaderAt {| rc_r := rc_r cm; rc_at := rc_at cm; rc_length := off + n; rc_refcnt := rc_refcnt cm |}]> (h_c h2))
                        else h2
                    | None => h2
                    end in
          (h3, ORet (n, p', e))
      | (h1, OPanic e) => (h1, OPanic e)
      | (h1, OSpin) => (h1, OSpin)
      end
  end.
Proof.
  intros []. unfold readerAt_Read. rs. rewrite ra_ncl0. rs.
  destruct (rb_err b) as [e|] eqn:Herr; rs; [done|]. rewrite ra_c0. rs.
  fold (ra_clamp (rb_offset b) (rc_length cm)).
  set (off := ra_clamp (rb_offset b) (rc_length cm)).
  unfold ra_fetch. set (avail := rc_length cm - off).
  set (x := if zlen p >? avail then avail else zlen p).
  pose proof (zlen_nonneg p) as Hp.
  assert (Hoff : 0 <= off <= rc_length cm) by (unfold off, ra_clamp; gif; lia).
  assert (Hx : 0 <= x <= zlen p) by (unfold x, avail; gif; lia).
  destruct (avail >? 0) eqn:Hav.
  - rs. rewrite slice_0 by lia. rs. rewrite (run_ra_readAt _ _ r) by done.
    destruct (ra_rd r h (take (Z.to_nat x) p) off) as [h1 o1] eqn:Hrd.
    pose proof (ra_rd_spec _ _ _ _ _ _ Hrd) as (Hb & Hc & _).
    destruct o1 as [[[n q] e]| |]; try done. rs.
    rewrite (run_StoreB _ _ _ _ (BReaderAt b)) by congruence. cbv beta iota zeta. rs.
    destruct e as [e|]; cbn.
    { gif; cbn [run act_step]; [|done]. cbn. rewrite Hc, ra_cm0. done. }
    destruct (zlen p >? avail); [|done].
    gif; cbn; [|done]. rewrite Hc, ra_cm0. done.
  - rs. destruct (zlen p >? avail); cbn; [|done].
    gif; cbn; [|done]. rewrite ra_cm0. done.
Qed.

Lemma run_ra_ReadAt h i b c cm r p off :
  ra_open h i b c cm r ->
  run E h (readerAt_ReadAt i p off) =
  if off <? 0 then (h, ORet (0, p, Some (ReadAtNegative off)))
  else ra_fetch r h p (rc_length cm) (ra_clamp off (rc_length cm)).
Proof.
  intros []. unfold readerAt_ReadAt. rs. rewrite ra_ncl0. rs.
  destruct (off <? 0) eqn:Hneg; rs; [done|]. rewrite ra_c0. rs.
  fold (ra_clamp off (rc_length cm)).
  assert (Ho : 0 <= ra_clamp off (rc_length cm) <= rc_length cm) by (unfold ra_clamp; gif; lia).
  set (off' := ra_clamp off (rc_length cm)) in *.
  unfold ra_fetch. set (avail := rc_length cm - off').
  set (x := if zlen p >? avail then avail else zlen p).
  pose proof (zlen_nonneg p) as Hp.
  assert (Hx : 0 <= x <= zlen p) by (unfold x, avail; gif; lia).
  destruct (avail >? 0) eqn:Hav; [|rs; done].
  rs. rewrite slice_0 by lia. rs. rewrite (run_ra_readAt _ _ r) by done.
  destruct (ra_rd r h (take (Z.to_nat x) p) off') as [h1 [[[n q] e]| |]]; done.
Qed.

Lemma run_ra_Seek h i b c cm r off wh :
  ra_open h i b c cm r -> in_i64 off ->
  run E h (readerAt_Seek i off wh) =
  let '(n, err) := seek_to (rc_length cm) (rb_offset b) off wh in
  (match err with
   | None => set_b h (<[i := BReaderAt {| rb_common := Some c; rb_err := None; rb_offset := n; rb_closed := false |}]> (h_b h))
   | Some _ => h
   end, ORet (n, err)).
Proof.
  intros [] Hin. rewrite seek_ok by done.
  unfold readerAt_Seek, readerAtCommon_BytesRemaining. rs. rewrite ra_ncl0. rs. rewrite ra_c0. rs.
  destruct ((wh =? SeekStart) && (off <? 0)); [done|]. destruct (negb _); [done|].
  cbv zeta. set (off' := if wh =? SeekCurrent then _ else _).
  destruct (off' <? 0); [done|]. rs. done.
Qed.

Lemma run_ra_Unwrap h i b c cm r :
  ra_open h i b c cm r -> run E h (readerAt_Unwrap i) = (h, ORet (Some r)).
Proof.
  intros []. unfold readerAt_Unwrap. rs. rewrite ra_ncl0. rs. rewrite ra_c0. rs. congruence.
Qed.

Lemma run_ra_Copy h i b c cm r :
  ra_open h i b c cm r ->
  run E h (readerAt_Copy i) =
  (set_c (set_b h (h_b h ++ [BReaderAt b]))
     (<[c := CReaderAt {| rc_r := rc_r cm; rc_at := rc_at cm; rc_length := rc_length cm; rc_refcnt := wrap32 (rc_refcnt cm + 1) |}]> (h_c h)),
   ORet (length (h_b h), None)).
Proof.
  intros []. unfold readerAt_Copy, readerAt_ref. rs. rewrite ra_ncl0. rs. rewrite ra_c0. rs.
  cbn.
  repeat f_equal. destruct b; cbn in *; congruence.
Qed.

Lemma run_ra_Close h i b c cm r :
  ra_open h i b c cm r ->
  run E h (readerAt_Close i) =
  let h1 := set_b h (<[i := BReaderAt {| rb_common := None; rb_err := None; rb_offset := 0; rb_closed := true |}]> (h_b h)) in
  let cnt := wrap32 (rc_refcnt cm - 1) in
  if cnt >? 0 then
    (set_c h1 (<[c := CReaderAt {| rc_r := rc_r cm; rc_at := rc_at cm; rc_length := rc_length cm; rc_refcnt := cnt |}]> (h_c h)), ORet None)
  else
    let c' := <[c := CReaderAt {| rc_r := None; rc_at := None; rc_length := 0; rc_refcnt := 0 |}]> (h_c h) in
    if is_closer (ev_caps E r) then
      let '(w, err) := ev_close E (h_w h) r in
      (emit (set_c h1 c') w (EvClose r err), ORet err)
    else (set_c h1 c', ORet None).
Proof.
  intros []. unfold readerAt_Close, readerAt_unref. rs. rewrite ra_ncl0. rs. rewrite ra_c0. rs.
  assert (Hlen : (c < length (h_c h))%nat) by (by eapply lookup_lt_Some).
  destruct (wrap32 (rc_refcnt cm - 1) >? 0) eqn:Hcnt; [done|].
  rewrite ra_r0. cbn [bind perform run act_step].
  destruct (is_closer (ev_caps E r)).
  - cbn [bind perform run act_step].
    cbn [h_w set_c set_b]. destruct (ev_close E (h_w h) r) as [w err]. cbn.
    rewrite list_lookup_insert by done. rewrite list_insert_insert. done.
  - cbn. rewrite list_lookup_insert by done. rewrite list_insert_insert. done.
Qed.

(** A closed handle. *)
Lemma run_ra_closed fuel h i b f :
  h_b h !! i = Some (BReaderAt b) -> rb_closed b = true ->
  run E h (method fuel (BReaderAt b) i f) =
  (h, ORet match f with
           | BytesRemaining => RInt 0
           | Read p => RRead 0 p (Some ErrClosed)
           | Close => RErr (Some ErrClosed)
           | Seek _ _ => RSeek (-1) (Some ErrClosed)
           | ReadAt p _ => RRead 0 p (Some ErrClosed)
           | WriteTo _ => RNoMethod
           | Copy => RBody closedSingleton None
           | Unwrap => RReader None
           end).
Proof.
  intros Hi Hcl. destruct f; cbn [method];
    unfold readerAt_BytesRemaining, readerAt_Read, readerAt_Close, readerAt_Seek, readerAt_ReadAt, readerAt_Copy, readerAt_Unwrap;
    rs; rewrite ?Hcl; rs; done.
Qed.

Lemma ra_open_wf h i b :
  wf h -> h_b h !! i = Some (BReaderAt b) -> rb_closed b = false ->
  exists c cm r, ra_open h i b c cm r.
Proof.
  intros Hwf Hi Hcl. pose proof (wf_b _ Hwf _ _ Hi) as Hb. cbn in Hb. rewrite Hcl in Hb.
  destruct Hb as (Hoff & c & cm & Hc & Hcm). pose proof (wf_c _ Hwf _ _ Hcm) as (Hcnt & Hlen & _ & Hr & Hat).
  assert (Hne : refs (h_b h) c <> []).
  { intros Hr'. pose proof (refs_pos (h_b h) c i _ Hi Hc) as H. rewrite Hr' in H. unfold zlen in H. cbn in H. lia. }
  destruct (Hr Hne) as (r & Hr'). exists c, cm, r. constructor; try done. congruence.
Qed.

(** The invariant is preserved by every call on such a Body. *)
Lemma ra_wf fuel h i b f h' o :
  wf h -> h_b h !! i = Some (BReaderAt b) -> go_op f ->
  run E h (method fuel (BReaderAt b) i f) = (h', o) ->
  zlen (h_b h') < 2 ^ 31 -> wf h'.
Proof.
  intros Hwf Hi Hgo Hrun Hsz. destruct (rb_closed b) eqn:Hcl.
  { rewrite run_ra_closed in Hrun by done. injection Hrun as <- <-. done. }
  destruct (ra_open_wf h i b Hwf Hi Hcl) as (c & cm & r & Ho). pose proof Ho as [].
  pose proof (wf_c _ Hwf _ _ ra_cm0) as (Hcnt & _ & Hn1 & Hn2 & Hat).
  pose proof (refs_pos (h_b h) c i _ Hi ra_c0) as Hpos.
  assert (Hne : refs (h_b h) c <> []). { intros Hr'. rewrite Hr' in Hpos. unfold zlen in Hpos. cbn in Hpos. lia. }
  assert (Hupd : forall h2 b' x', rb_common b' = Some c -> rb_closed b' = false -> 0 <= rb_offset b' <= max_i64 ->
     rc_r x' = rc_r cm -> rc_at x' = rc_at cm -> rc_refcnt x' = rc_refcnt cm -> 0 <= rc_length x' <= max_i64 ->
     h_b h2 = <[i := BReaderAt b']> (h_b h) -> h_c h2 = <[c := CReaderAt x']> (h_c h) ->
     total_read (h_log h) <= total_read (h_log h2) -> wf h2).
  { intros h2 b' x' Hb1 Hb2 Hb3 Hx1 Hx2 Hx3 Hx4 Eb Ec Hlog.
    assert (Hlc : h_c h2 !! c = Some (CReaderAt x')).
    { rewrite Ec. apply list_lookup_insert. by eapply lookup_lt_Some. }
    eapply wf_upd; try done.
    - left. done.
    - cbn. rewrite Hb2. split; [done|]. by exists c, x'.
    - rewrite Eb. cbn. rewrite (refs_store_same _ _ _ (BReaderAt b)) by (try done; cbn; congruence).
      split_and!; try lia; try congruence. intros _. exists r. congruence.
    - intros j bj Hj Hbj Hcj. pose proof (wf_b _ Hwf _ _ Hbj) as Hw.
      destruct bj as [|bj|bj|bj|bj|bj]; cbn in Hcj, Hw; try done; cbn.
      + destruct (sb_closed bj); [congruence|]. destruct Hw as (_ & c' & y & Hc' & Hy). congruence.
      + destruct (rb_closed bj); [congruence|]. destruct Hw as (Hw & c' & y & Hc' & Hy). split; [done|]. by exists c, x'.
      + destruct (bb_closed bj); [congruence|]. destruct Hw as (_ & c' & y & Hc' & Hy & _). congruence. }
  destruct f; cbn [method] in Hrun.
  - rewrite run_rint, (run_ra_BytesRemaining _ _ _ _ _ _ Ho) in Hrun. injection Hrun as <- <-. done.
  - rewrite run_rread, (run_ra_Read _ _ _ _ _ _ _ Ho) in Hrun.
    destruct (rb_err b); [injection Hrun as <- <-; done|]. cbv zeta in Hrun.
    set (off := ra_clamp (rb_offset b) (rc_length cm)) in *.
    assert (Hoff : 0 <= off <= rc_length cm) by (unfold off, ra_clamp; gif; lia).
    destruct (ra_fetch r h p (rc_length cm) off) as [h1 o1] eqn:Hf.
    pose proof (ra_fetch_spec _ _ _ _ _ _ _ Hoff Hf) as (Hb1 & Hc1 & Hcase).
    assert (Hlog : total_read (h_log h) <= total_read (h_log h1)).
    { destruct Hcase as [(-> & _)|(_ & n & e & -> & _)]; [lia|]. rewrite total_read_app.
      pose proof (total_read_nonneg [EvReadAt r (Z.min (zlen p) (rc_length cm - off)) off n e]). lia. }
    destruct o1 as [[[n p'] e]|e|].
    + assert (Hn : 0 <= n <= rc_length cm - off).
      { destruct Hcase as [(-> & ? & [=])|(_ & n' & e' & _ & [(Hn & ? & ? & [=] & _)|(_ & [=])])]; subst; lia. }
      destruct e as [e|]; [destruct (off + n <? rc_length cm) eqn:Htr|].
      * injection Hrun as <- <-.
        eapply (Hupd _ {| rb_common := Some c; rb_err := Some e; rb_offset := off + n; rb_closed := false |}
           {| rc_r := rc_r cm; rc_at := rc_at cm; rc_length := off + n; rc_refcnt := rc_refcnt cm |}); cbn; try done; try lia; try congruence.
      * injection Hrun as <- <-.
        eapply (Hupd _ {| rb_common := Some c; rb_err := Some e; rb_offset := off + n; rb_closed := false |} cm); cbn; try done; try lia; try congruence.
        rewrite Hc1. by rewrite list_insert_id.
      * injection Hrun as <- <-.
        eapply (Hupd _ {| rb_common := Some c; rb_err := None; rb_offset := off + n; rb_closed := false |} cm); cbn; try done; try lia; try congruence.
        rewrite Hc1. by rewrite list_insert_id.
    + injection Hrun as <- <-. by eapply wf_same.
    + injection Hrun as <- <-. by eapply wf_same.
  - rewrite run_rerr, (run_ra_Close _ _ _ _ _ _ Ho) in Hrun. cbv zeta in Hrun.
    set (b' := BReaderAt {| rb_common := None; rb_err := None; rb_offset := 0; rb_closed := true |}) in *.
    assert (Hsz' : zlen (h_b h) < 2 ^ 31).
    { destruct (wrap32 (rc_refcnt cm - 1) >? 0); [|destruct (is_closer _); [destruct (ev_close _ _ _)|]];
        injection Hrun as <- <-; cbn in Hsz; unfold zlen in *; rewrite insert_length in Hsz; done. }
    pose proof (zlen_refs_le (h_b h) c) as Hle.
    rewrite Hcnt, wrap32_id in Hrun by lia.
    pose proof (zlen_refs_del (h_b h) c i _ b' Hi ra_c0 eq_refl) as Hdel.
    assert (Hupd2 : forall h2 x',
       rc_refcnt x' = zlen (refs (h_b h) c) - 1 -> 0 <= rc_length x' <= max_i64 -> rc_at x' = rc_r x' ->
       rc_r x' = (if zlen (refs (h_b h) c) - 1 >? 0 then Some r else None) ->
       h_b h2 = <[i := b']> (h_b h) -> h_c h2 = <[c := CReaderAt x']> (h_c h) ->
       total_read (h_log h) <= total_read (h_log h2) -> wf h2).
    { intros h2 x' Hx1 Hx2 Hx3 Hx4 Eb Ec Hlog.
      assert (Hlc : h_c h2 !! c = Some (CReaderAt x')).
      { rewrite Ec. apply list_lookup_insert. by eapply lookup_lt_Some. }
      eapply wf_upd; try done.
      - right. done.
      - rewrite Eb. cbn [wf_common]. rewrite Hdel. split_and!; try done; try lia.
        + intros Hnil. rewrite Hnil in Hdel. unfold zlen at 1 in Hdel. cbn in Hdel.
          rewrite Hx4. gif; [lia|done].
        + intros Hnn. rewrite Hx4. pose proof (zlen_pos_ne _ Hnn).
          exists r. gif; [done|lia].
      - intros j bj Hj Hbj Hcj. pose proof (wf_b _ Hwf _ _ Hbj) as Hw.
        destruct bj as [|bj|bj|bj|bj|bj]; cbn in Hcj, Hw; try done; cbn.
        + destruct (sb_closed bj); [congruence|]. destruct Hw as (_ & c' & y & Hc' & Hy). congruence.
        + destruct (rb_closed bj); [congruence|]. destruct Hw as (Hw & c' & y & Hc' & Hy). split; [done|]. by exists c, x'.
        + destruct (bb_closed bj); [congruence|]. destruct Hw as (_ & c' & y & Hc' & Hy & _). congruence. }
    destruct (zlen (refs (h_b h) c) - 1 >? 0) eqn:Hgt.
    + injection Hrun as <- <-. eapply Hupd2; [..|done|done|done]; cbn; try done; congruence.
    + destruct (is_closer (ev_caps E r)).
      * destruct (ev_close E (h_w h) r) as [w err]. injection Hrun as <- <-.
        eapply Hupd2; [..|done|done|]; cbn; try done; try lia.
        rewrite total_read_app. pose proof (total_read_nonneg [EvClose r err]). lia.
      * injection Hrun as <- <-. eapply Hupd2; [..|done|done|done]; cbn; try done; lia.
  - cbn in Hgo. rewrite run_rseek, (run_ra_Seek _ _ _ _ _ _ _ _ Ho (proj1 Hgo)) in Hrun.
    destruct (seek_to (rc_length cm) (rb_offset b) offset whence) as [n [e|]] eqn:Hs.
    { injection Hrun as <- <-. done. }
    assert (Hn : 0 <= n <= rc_length cm).
    { unfold seek_to in Hs. repeat (match type of Hs with (if ?x then _ else _) = _ => destruct x eqn:? end; try done).
      cbv zeta in Hs. repeat (match type of Hs with (if ?x then _ else _) = _ => destruct x eqn:? end; try done).
      injection Hs as <-. lia. }
    injection Hrun as <- <-.
    eapply (Hupd _ {| rb_common := Some c; rb_err := None; rb_offset := n; rb_closed := false |} cm); cbn; try done; try lia; try congruence.
    by rewrite list_insert_id.
  - rewrite run_rread, (run_ra_ReadAt _ _ _ _ _ _ _ _ Ho) in Hrun.
    destruct (offset <? 0) eqn:Hneg; [injection Hrun as <- <-; done|].
    set (off := ra_clamp offset (rc_length cm)) in *.
    assert (Hoff : 0 <= off <= rc_length cm) by (unfold off, ra_clamp; gif; lia).
    destruct (ra_fetch r h p (rc_length cm) off) as [h1 o1] eqn:Hf.
    pose proof (ra_fetch_spec _ _ _ _ _ _ _ Hoff Hf) as (Hb1 & Hc1 & Hcase).
    assert (Hlog : total_read (h_log h) <= total_read (h_log h1)).
    { destruct Hcase as [(-> & _)|(_ & n & e & -> & _)]; [lia|]. rewrite total_read_app.
      pose proof (total_read_nonneg [EvReadAt r (Z.min (zlen p) (rc_length cm - off)) off n e]). lia. }
    assert (h' = h1) as -> by (destruct o1 as [[[n p'] e]|e|]; congruence).
    by eapply wf_same.
  - cbn in Hrun. injection Hrun as <- <-. done.
  - rewrite run_rbody, (run_ra_Copy _ _ _ _ _ _ Ho) in Hrun. injection Hrun as <- <-.
    cbn in Hsz. rewrite zlen_app in Hsz. unfold zlen at 2 in Hsz. cbn in Hsz.
    pose proof (zlen_refs_le (h_b h) c) as Hle.
    assert (Hlen : (c < length (h_c h))%nat) by (by eapply lookup_lt_Some).
    eapply (wf_copy h _ (BReaderAt b) c); try done; cbn [h_b h_c h_log set_c set_b].
    + cbn. rewrite ra_ncl0. split; [done|]. eexists c, _. split; [done|]. by apply list_lookup_insert.
    + cbn [wf_common rc_refcnt rc_r rc_at rc_length]. rewrite refs_new. rewrite decide_True by done.
      rewrite zlen_app. unfold zlen at 2. cbn [length]. rewrite wrap32_id by lia. split_and!; try done; try lia.
      * intros Hnil. by destruct (refs (h_b h) c).
      * intros _. by exists r.
    + intros j bj Hbj Hcj. pose proof (wf_b _ Hwf _ _ Hbj) as Hw.
      destruct bj as [|bj|bj|bj|bj|bj]; cbn in Hcj, Hw; try done; cbn.
      * destruct (sb_closed bj); [congruence|]. destruct Hw as (_ & c' & y & Hc' & Hy). congruence.
      * destruct (rb_closed bj); [congruence|]. destruct Hw as (Hw & c' & y & Hc' & Hy). split; [done|].
        eexists c, _. split; [done|]. by apply list_lookup_insert.
      * destruct (bb_closed bj); [congruence|]. destruct Hw as (_ & c' & y & Hc' & Hy & _). congruence.
  - rewrite run_rreader, (run_ra_Unwrap _ _ _ _ _ _ Ho) in Hrun. injection Hrun as <- <-. done.
Qed.

End ReaderAt.
