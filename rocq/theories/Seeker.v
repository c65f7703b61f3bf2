(** * seekerBody: what each method does (proofs) *)
From stdpp Require Import gmap.
From Coq Require Import ZifyBool.
From Verif Require Export ReaderAt.

Section Seeker.
Context {W : Type} (E : env W).
Implicit Types h : heap W.

(** Seek, then Read. *)
Definition sk_rd (r : rid) h (px : bytes) (off : Z) : heap W * out rdres :=
  let '(w, (n0, e0)) := ev_seek E (h_w h) r off SeekStart in
  let h0 := emit h w (EvSeek r off SeekStart n0 e0) in
  match e0 with
  | Some e => (h0, ORet (0, px, Some e))
  | None =>
      let '(w, (n, q, e)) := ev_read E w r px in
      (emit h0 w (EvRead r (zlen px) n (take (Z.to_nat n) (fit px q)) e),
       if (0 <=? n) && (n <=? zlen px) then ORet (n, fit px q, e) else OPanic PAssert)
  end.

Lemma run_sk_readAt h cm r px off :
  sc_s cm = Some r -> run E h (seeker_readAt cm px off) = sk_rd r h px off.
Proof.
  intros Hr. unfold seeker_readAt, sk_rd. rs. rewrite Hr. cbn.
  destruct (ev_seek E (h_w h) r off SeekStart) as [w [n0 [e0|]]]; cbn; [done|].
  destruct (ev_read E w r px) as [w' [[n q] e]]. cbn.
  replace (n >=? 0) with (0 <=? n) by lia.
  destruct (0 <=? n); cbn; [|done]. destruct (n <=? zlen px); done.
Qed.

(** Properties of [sk_rd] that hold for every Reader. *)
Definition sk_evs (r : rid) (len off : Z) (evs : list event) (n : Z) (e : option error) : Prop :=
  (exists n0 e0, evs = [EvSeek r off SeekStart n0 (Some e0)] /\ n = 0 /\ e = Some e0) \/
  (exists n0 q, evs = [EvSeek r off SeekStart n0 None; EvRead r len n q e]).

Lemma sk_rd_spec r h px off h1 o :
  sk_rd r h px off = (h1, o) ->
  h_b h1 = h_b h /\ h_c h1 = h_c h /\
  (exists evs n e, h_log h1 = h_log h ++ evs /\ sk_evs r (zlen px) off evs n e /\
     ((0 <= n <= zlen px /\ exists q, o = ORet (n, q, e) /\ length q = length px /\ (n = 0 /\ handed evs = 0 /\ q = px \/ handed evs = zlen px)) \/
      (~ 0 <= n <= zlen px /\ o = OPanic PAssert))).
Proof.
  unfold sk_rd. destruct (ev_seek E (h_w h) r off SeekStart) as [w [n0 [e0|]]].
  { intros [= <- <-]. cbn. do 2 (split; [done|]). eexists _, 0, (Some e0). split; [done|].
    split; [left; eauto|]. left. pose proof (zlen_nonneg px). split; [lia|]. eexists. split; [done|]. split; [done|]. by left. }
  destruct (ev_read E w r px) as [w' [[n q] e]].
  intros [= <- <-]. cbn. do 2 (split; [done|]). eexists _, n, e. rewrite <- app_assoc. split; [done|].
  split; [right; by eexists _, _|].
  destruct ((0 <=? n) && (n <=? zlen px)) eqn:Hn; [left|right]; (split; [lia|]); [|done].
  eexists; split; [done|]. split; [apply fit_length|]. right. cbn. lia.
Qed.

Record sk_open h i b c cm r : Prop := {
  sk_b : h_b h !! i = Some (BSeeker b);
  sk_ncl : sb_closed b = false;
  sk_c : sb_common b = Some c;
  sk_cm : h_c h !! c = Some (CSeeker cm);
  sk_r : sc_s cm = Some r;
  sk_off : 0 <= sb_offset b <= max_i64;
  sk_len : 0 <= sc_length cm <= max_i64
}.

Definition sk_clamp (off len : Z) : Z := if off >? len then len else off.

(** The reading part common to Read and ReadAt. *)
Definition sk_fetch r h (p : bytes) (len off : Z) : heap W * out rdres :=
  let avail := len - off in
  let x := if zlen p >? avail then avail else zlen p in
  let fin '(n, p', e) := (n, p', match e with None => if zlen p >? avail then Some EOF else None | Some e => Some e end) in
  if avail >? 0 then
    match sk_rd r h (take (Z.to_nat x) p) off with
    | (h1, ORet (n, q, e)) => (h1, ORet (fin (n, q ++ drop (Z.to_nat x) p, e)))
    | (h1, OPanic e) => (h1, OPanic e)
    | (h1, OSpin) => (h1, OSpin)
    end
  else (h, ORet (fin (0, p, None))).

Lemma sk_fetch_spec r h p len off h1 o :
  0 <= off <= len ->
  sk_fetch r h p len off = (h1, o) ->
  h_b h1 = h_b h /\ h_c h1 = h_c h /\
  ((h1 = h /\ len = off /\ o = ORet (0, p, if zlen p >? 0 then Some EOF else None)) \/
   (off < len /\ exists evs n e, h_log h1 = h_log h ++ evs /\ sk_evs r (Z.min (zlen p) (len - off)) off evs n e /\
     ((0 <= n <= Z.min (zlen p) (len - off) /\
       exists p' e', o = ORet (n, p', e') /\ length p' = length p /\
         drop (Z.to_nat (len - off)) p' = drop (Z.to_nat (len - off)) p /\
         n <= handed evs <= zlen p /\ drop (Z.to_nat (handed evs)) p' = drop (Z.to_nat (handed evs)) p /\
         e' = match e with None => if zlen p >? len - off then Some EOF else None | Some e => Some e end) \/
      (~ 0 <= n <= Z.min (zlen p) (len - off) /\ o = OPanic PAssert)))).
Proof.
  intros Hoff. unfold sk_fetch. set (avail := len - off).
  set (x := if zlen p >? avail then avail else zlen p).
  pose proof (zlen_nonneg p) as Hp.
  assert (Hx : x = Z.min (zlen p) avail) by (unfold x; gif; lia).
  assert (Hpx : zlen (take (Z.to_nat x) p) = x) by (rewrite zlen_take; lia).
  destruct (avail >? 0) eqn:Hav.
  - destruct (sk_rd r h (take (Z.to_nat x) p) off) as [h' o'] eqn:Hrd.
    pose proof (sk_rd_spec _ _ _ _ _ _ Hrd) as (Hb & Hc & evs & n & e & Hlog & Hevs & Hcase). rewrite Hpx in *.
    destruct Hcase as [(Hn & q & -> & Hq & Hh)|(Hn & ->)]; intros [= <- <-].
    + do 2 (split; [done|]). right. split; [lia|]. exists evs, n, e. rewrite <- Hx. do 2 (split; [done|]). left. split; [lia|].
      eexists _, _. split; [done|]. assert (Hql : length q = Z.to_nat x) by (unfold zlen in *; lia).
      assert (Hd : forall k, (Z.to_nat x <= k)%nat -> drop k (q ++ drop (Z.to_nat x) p) = drop k p).
      { intros k Hk. rewrite drop_app_ge by lia. rewrite drop_drop. f_equal. lia. }
      split; [rewrite app_length, drop_length, Hql; unfold zlen in *; lia|].
      split.
      { destruct (decide (zlen p <= avail)); [|apply Hd; lia].
        rewrite !drop_ge; [done|unfold zlen in *; lia|rewrite app_length, drop_length, Hql; unfold zlen in *; lia]. }
      destruct Hh as [(-> & -> & ->)|Hh].
      * rewrite take_drop. split; [lia|]. done.
      * rewrite Hh. split; [lia|]. rewrite Hd by lia. done.
    + do 2 (split; [done|]). right. split; [lia|]. exists evs, n, e. rewrite <- Hx. do 2 (split; [done|]). right. done.
  - intros [= <- <-]. do 2 (split; [done|]). left. assert (Ha : avail = 0) by lia. rewrite Ha.
    split_and!; try done. unfold avail in Ha. lia.
Qed.

Lemma run_sk_BytesRemaining h i b c cm r :
  sk_open h i b c cm r ->
  run E h (seeker_BytesRemaining i) = (h, ORet (sc_length cm - sb_offset b)).
Proof.
  intros []. unfold seeker_BytesRemaining. rs. rewrite sk_ncl0. rs.
  rewrite sk_c0. rs. done.
Qed.

Lemma run_sk_Read h i b c cm r p :
  sk_open h i b c cm r ->
  run E h (seeker_Read i p) =
  match sb_err b with
  | Some e => (h, ORet (0, p, Some e))
  | None =>
      let off := sk_clamp (sb_offset b) (sc_length cm) in
      match sk_fetch r h p (sc_length cm) off with
      | (h1, ORet (n, p', e)) =>
          let h2 := set_b h1 (<[i := BSeeker {| sb_common := Some c; sb_err := e; sb_offset := off + n; sb_closed := false |}]> (h_b h1)) in
          let h3 := match e with
                    | Some _ =>
                        if off + n <? sc_length cm
                        then set_c h2 (<[c := CSeeker {| sc_s := sc_s cm; sc_length := off + n; sc_refcnt := sc_refcnt cm |}]> (h_c h2))
                        else h2
                    | None => h2
                    end in
          (h3, ORet (n, p', e))
      | (h1, OPanic e) => (h1, OPanic e)
      | (h1, OSpin) => (h1, OSpin)
      end
  end.
Proof.
  intros []. unfold seeker_Read. rs. rewrite sk_ncl0. rs.
  destruct (sb_err b) as [e|] eqn:Herr; rs; [done|]. rewrite sk_c0. rs.
  fold (sk_clamp (sb_offset b) (sc_length cm)).
  set (off := sk_clamp (sb_offset b) (sc_length cm)).
  unfold sk_fetch. set (avail := sc_length cm - off).
  set (x := if zlen p >? avail then avail else zlen p).
  pose proof (zlen_nonneg p) as Hp.
  assert (Hoff : 0 <= off <= sc_length cm) by (unfold off, sk_clamp; gif; lia).
  assert (Hx : 0 <= x <= zlen p) by (unfold x, avail; gif; lia).
  destruct (avail >? 0) eqn:Hav.
  - rs. rewrite slice_0 by lia. rs. rewrite (run_sk_readAt _ _ r) by done.
    destruct (sk_rd r h (take (Z.to_nat x) p) off) as [h1 o1] eqn:Hrd.
    pose proof (sk_rd_spec _ _ _ _ _ _ Hrd) as (Hb & Hc & _).
    destruct o1 as [[[n q] e]| |]; try done. rs.
    rewrite (run_StoreB _ _ _ _ (BSeeker b)) by congruence. cbv beta iota zeta. rs.
    destruct e as [e|]; cbn.
    { gif; cbn [run act_step]; [|done]. cbn. rewrite Hc, sk_cm0. done. }
    destruct (zlen p >? avail); [|done].
    gif; cbn; [|done]. rewrite Hc, sk_cm0. done.
  - rs. destruct (zlen p >? avail); cbn; [|done].
    gif; cbn; [|done]. rewrite sk_cm0. done.
Qed.

Lemma run_sk_ReadAt h i b c cm r p off :
  sk_open h i b c cm r ->
  run E h (seeker_ReadAt i p off) =
  if off <? 0 then (h, ORet (0, p, Some (ReadAtNegative off)))
  else sk_fetch r h p (sc_length cm) (sk_clamp off (sc_length cm)).
Proof.
  intros []. unfold seeker_ReadAt. rs. rewrite sk_ncl0. rs.
  destruct (off <? 0) eqn:Hneg; rs; [done|]. rewrite sk_c0. rs.
  fold (sk_clamp off (sc_length cm)).
  assert (Ho : 0 <= sk_clamp off (sc_length cm) <= sc_length cm) by (unfold sk_clamp; gif; lia).
  set (off' := sk_clamp off (sc_length cm)) in *.
  unfold sk_fetch. set (avail := sc_length cm - off').
  set (x := if zlen p >? avail then avail else zlen p).
  pose proof (zlen_nonneg p) as Hp.
  assert (Hx : 0 <= x <= zlen p) by (unfold x, avail; gif; lia).
  destruct (avail >? 0) eqn:Hav; [|rs; done].
  rs. rewrite slice_0 by lia. rs. rewrite (run_sk_readAt _ _ r) by done.
  destruct (sk_rd r h (take (Z.to_nat x) p) off') as [h1 [[[n q] e]| |]]; done.
Qed.

Lemma run_sk_Seek h i b c cm r off wh :
  sk_open h i b c cm r -> in_i64 off ->
  run E h (seeker_Seek i off wh) =
  let '(n, err) := seek_to (sc_length cm) (sb_offset b) off wh in
  (match err with
   | None => set_b h (<[i := BSeeker {| sb_common := Some c; sb_err := None; sb_offset := n; sb_closed := false |}]> (h_b h))
   | Some _ => h
   end, ORet (n, err)).
Proof.
  intros [] Hin. rewrite seek_ok by done.
  unfold seeker_Seek, seekerCommon_BytesRemaining. rs. rewrite sk_ncl0. rs. rewrite sk_c0. rs.
  destruct ((wh =? SeekStart) && (off <? 0)); [done|]. destruct (negb _); [done|].
  cbv zeta. set (off' := if wh =? SeekCurrent then _ else _).
  destruct (off' <? 0); [done|]. rs. done.
Qed.

Lemma run_sk_Unwrap h i b c cm r :
  sk_open h i b c cm r -> run E h (seeker_Unwrap i) = (h, ORet (Some r)).
Proof.
  intros []. unfold seeker_Unwrap. rs. rewrite sk_ncl0. rs. rewrite sk_c0. rs. congruence.
Qed.

Lemma run_sk_Copy h i b c cm r :
  sk_open h i b c cm r ->
  run E h (seeker_Copy i) =
  (set_c (set_b h (h_b h ++ [BSeeker b]))
     (<[c := CSeeker {| sc_s := sc_s cm; sc_length := sc_length cm; sc_refcnt := wrap32 (sc_refcnt cm + 1) |}]> (h_c h)),
   ORet (length (h_b h), None)).
Proof.
  intros []. unfold seeker_Copy, seeker_ref. rs. rewrite sk_ncl0. rs. rewrite sk_c0. rs.
  cbn.
  repeat f_equal. destruct b; cbn in *; congruence.
Qed.

Lemma run_sk_Close h i b c cm r :
  sk_open h i b c cm r ->
  run E h (seeker_Close i) =
  let h1 := set_b h (<[i := BSeeker {| sb_common := None; sb_err := None; sb_offset := 0; sb_closed := true |}]> (h_b h)) in
  let cnt := wrap32 (sc_refcnt cm - 1) in
  if cnt >? 0 then
    (set_c h1 (<[c := CSeeker {| sc_s := sc_s cm; sc_length := sc_length cm; sc_refcnt := cnt |}]> (h_c h)), ORet None)
  else
    let c' := <[c := CSeeker {| sc_s := None; sc_length := 0; sc_refcnt := 0 |}]> (h_c h) in
    if is_closer (ev_caps E r) then
      let '(w, err) := ev_close E (h_w h) r in
      (emit (set_c h1 c') w (EvClose r err), ORet err)
    else (set_c h1 c', ORet None).
Proof.
  intros []. unfold seeker_Close, seeker_unref. rs. rewrite sk_ncl0. rs. rewrite sk_c0. rs.
  assert (Hlen : (c < length (h_c h))%nat) by (by eapply lookup_lt_Some).
  destruct (wrap32 (sc_refcnt cm - 1) >? 0) eqn:Hcnt; [done|].
  rewrite sk_r0. cbn [bind perform run act_step].
  destruct (is_closer (ev_caps E r)).
  - cbn [bind perform run act_step].
    cbn [h_w set_c set_b]. destruct (ev_close E (h_w h) r) as [w err]. cbn.
    rewrite list_lookup_insert by done. rewrite list_insert_insert. done.
  - cbn. rewrite list_lookup_insert by done. rewrite list_insert_insert. done.
Qed.

(** A closed handle. *)
Lemma run_sk_closed fuel h i b f :
  h_b h !! i = Some (BSeeker b) -> sb_closed b = true ->
  run E h (method fuel (BSeeker b) i f) =
  (h, ORet match f with
           | BytesRemaining => RInt 0
           | Read p => RRead 0 p (Some ErrClosed)
           | Close => RErr (Some ErrClosed)
           | Seek _ _ => RSeek (-1) (Some ErrClosed)
           | ReadAt p _ => RRead 0 p (Some ErrClosed)
           | WriteTo _ => RNoMethod
           | Copy => RBody closedSingleton None
           | Unwrap => RReader None
           end).
Proof.
  intros Hi Hcl. destruct f; cbn [method];
    unfold seeker_BytesRemaining, seeker_Read, seeker_Close, seeker_Seek, seeker_ReadAt, seeker_Copy, seeker_Unwrap;
    rs; rewrite ?Hcl; rs; done.
Qed.

Lemma sk_open_wf h i b :
  wf h -> h_b h !! i = Some (BSeeker b) -> sb_closed b = false ->
  exists c cm r, sk_open h i b c cm r.
Proof.
  intros Hwf Hi Hcl. pose proof (wf_b _ Hwf _ _ Hi) as Hb. cbn in Hb. rewrite Hcl in Hb.
  destruct Hb as (Hoff & c & cm & Hc & Hcm). pose proof (wf_c _ Hwf _ _ Hcm) as (Hcnt & Hlen & _ & Hr).
  assert (Hne : refs (h_b h) c <> []).
  { intros Hr'. pose proof (refs_pos (h_b h) c i _ Hi Hc) as H. rewrite Hr' in H. unfold zlen in H. cbn in H. lia. }
  destruct (Hr Hne) as (r & Hr'). exists c, cm, r. constructor; done.
Qed.

(** The invariant is preserved by every call on such a Body. *)
Lemma sk_wf fuel h i b f h' o :
  wf h -> h_b h !! i = Some (BSeeker b) -> go_op f ->
  run E h (method fuel (BSeeker b) i f) = (h', o) ->
  zlen (h_b h') < 2 ^ 31 -> wf h'.
Proof.
  intros Hwf Hi Hgo Hrun Hsz. destruct (sb_closed b) eqn:Hcl.
  { rewrite run_sk_closed in Hrun by done. injection Hrun as <- <-. done. }
  destruct (sk_open_wf h i b Hwf Hi Hcl) as (c & cm & r & Ho). pose proof Ho as [].
  pose proof (wf_c _ Hwf _ _ sk_cm0) as (Hcnt & _ & Hn1 & Hn2).
  pose proof (refs_pos (h_b h) c i _ Hi sk_c0) as Hpos.
  assert (Hne : refs (h_b h) c <> []). { intros Hr'. rewrite Hr' in Hpos. unfold zlen in Hpos. cbn in Hpos. lia. }
  assert (Hupd : forall h2 b' x', sb_common b' = Some c -> sb_closed b' = false -> 0 <= sb_offset b' <= max_i64 ->
     sc_s x' = sc_s cm -> sc_refcnt x' = sc_refcnt cm -> 0 <= sc_length x' <= max_i64 ->
     h_b h2 = <[i := BSeeker b']> (h_b h) -> h_c h2 = <[c := CSeeker x']> (h_c h) ->
     total_read (h_log h) <= total_read (h_log h2) -> wf h2).
  { intros h2 b' x' Hb1 Hb2 Hb3 Hx1 Hx3 Hx4 Eb Ec Hlog.
    assert (Hlc : h_c h2 !! c = Some (CSeeker x')).
    { rewrite Ec. apply list_lookup_insert. by eapply lookup_lt_Some. }
    eapply wf_upd; try done.
    - left. done.
    - cbn. rewrite Hb2. split; [done|]. by exists c, x'.
    - rewrite Eb. cbn. rewrite (refs_store_same _ _ _ (BSeeker b)) by (try done; cbn; congruence).
      split_and!; try lia; try congruence. intros _. exists r. congruence.
    - intros j bj Hj Hbj Hcj. pose proof (wf_b _ Hwf _ _ Hbj) as Hw.
      destruct bj as [|bj|bj|bj|bj|bj]; cbn in Hcj, Hw; try done; cbn.
      + destruct (sb_closed bj); [congruence|]. destruct Hw as (Hw & c' & y & Hc' & Hy). split; [done|]. by exists c, x'.
      + destruct (rb_closed bj); [congruence|]. destruct Hw as (_ & c' & y & Hc' & Hy). congruence.
      + destruct (bb_closed bj); [congruence|]. destruct Hw as (_ & c' & y & Hc' & Hy & _). congruence. }
  destruct f; cbn [method] in Hrun.
  - rewrite run_rint, (run_sk_BytesRemaining _ _ _ _ _ _ Ho) in Hrun. injection Hrun as <- <-. done.
  - rewrite run_rread, (run_sk_Read _ _ _ _ _ _ _ Ho) in Hrun.
    destruct (sb_err b); [injection Hrun as <- <-; done|]. cbv zeta in Hrun.
    set (off := sk_clamp (sb_offset b) (sc_length cm)) in *.
    assert (Hoff : 0 <= off <= sc_length cm) by (unfold off, sk_clamp; gif; lia).
    destruct (sk_fetch r h p (sc_length cm) off) as [h1 o1] eqn:Hf.
    pose proof (sk_fetch_spec _ _ _ _ _ _ _ Hoff Hf) as (Hb1 & Hc1 & Hcase).
    assert (Hlog : total_read (h_log h) <= total_read (h_log h1)).
    { destruct Hcase as [(-> & _)|(_ & evs & n & e & -> & _)]; [lia|]. rewrite total_read_app.
      pose proof (total_read_nonneg evs). lia. }
    destruct o1 as [[[n p'] e]|e|].
    + assert (Hn : 0 <= n <= sc_length cm - off).
      { destruct Hcase as [(-> & ? & [=])|(_ & evs & n' & e' & _ & _ & [(Hn & ? & ? & [=] & _)|(_ & [=])])]; subst; lia. }
      destruct e as [e|]; [destruct (off + n <? sc_length cm) eqn:Htr|].
      * injection Hrun as <- <-.
        eapply (Hupd _ {| sb_common := Some c; sb_err := Some e; sb_offset := off + n; sb_closed := false |}
           {| sc_s := sc_s cm; sc_length := off + n; sc_refcnt := sc_refcnt cm |}); cbn; try done; try lia; try congruence.
      * injection Hrun as <- <-.
        eapply (Hupd _ {| sb_common := Some c; sb_err := Some e; sb_offset := off + n; sb_closed := false |} cm); cbn; try done; try lia; try congruence.
        rewrite Hc1. by rewrite list_insert_id.
      * injection Hrun as <- <-.
        eapply (Hupd _ {| sb_common := Some c; sb_err := None; sb_offset := off + n; sb_closed := false |} cm); cbn; try done; try lia; try congruence.
        rewrite Hc1. by rewrite list_insert_id.
    + injection Hrun as <- <-. by eapply wf_same.
    + injection Hrun as <- <-. by eapply wf_same.
  - rewrite run_rerr, (run_sk_Close _ _ _ _ _ _ Ho) in Hrun. cbv zeta in Hrun.
    set (b' := BSeeker {| sb_common := None; sb_err := None; sb_offset := 0; sb_closed := true |}) in *.
    assert (Hsz' : zlen (h_b h) < 2 ^ 31).
    { destruct (wrap32 (sc_refcnt cm - 1) >? 0); [|destruct (is_closer _); [destruct (ev_close _ _ _)|]];
        injection Hrun as <- <-; cbn in Hsz; unfold zlen in *; rewrite insert_length in Hsz; done. }
    pose proof (zlen_refs_le (h_b h) c) as Hle.
    rewrite Hcnt, wrap32_id in Hrun by lia.
    pose proof (zlen_refs_del (h_b h) c i _ b' Hi sk_c0 eq_refl) as Hdel.
    assert (Hupd2 : forall h2 x',
       sc_refcnt x' = zlen (refs (h_b h) c) - 1 -> 0 <= sc_length x' <= max_i64 ->
       sc_s x' = (if zlen (refs (h_b h) c) - 1 >? 0 then Some r else None) ->
       h_b h2 = <[i := b']> (h_b h) -> h_c h2 = <[c := CSeeker x']> (h_c h) ->
       total_read (h_log h) <= total_read (h_log h2) -> wf h2).
    { intros h2 x' Hx1 Hx2 Hx4 Eb Ec Hlog.
      assert (Hlc : h_c h2 !! c = Some (CSeeker x')).
      { rewrite Ec. apply list_lookup_insert. by eapply lookup_lt_Some. }
      eapply wf_upd; try done.
      - right. done.
      - rewrite Eb. cbn [wf_common]. rewrite Hdel. split_and!; try done; try lia.
        + intros Hnil. rewrite Hnil in Hdel. unfold zlen at 1 in Hdel. cbn in Hdel.
          rewrite Hx4. gif; [lia|done].
        + intros Hnn. rewrite Hx4. pose proof (zlen_pos_ne _ Hnn).
          exists r. gif; [done|lia].
      - intros j bj Hj Hbj Hcj. pose proof (wf_b _ Hwf _ _ Hbj) as Hw.
        destruct bj as [|bj|bj|bj|bj|bj]; cbn in Hcj, Hw; try done; cbn.
        + destruct (sb_closed bj); [congruence|]. destruct Hw as (Hw & c' & y & Hc' & Hy). split; [done|]. by exists c, x'.
        + destruct (rb_closed bj); [congruence|]. destruct Hw as (_ & c' & y & Hc' & Hy). congruence.
        + destruct (bb_closed bj); [congruence|]. destruct Hw as (_ & c' & y & Hc' & Hy & _). congruence. }
    destruct (zlen (refs (h_b h) c) - 1 >? 0) eqn:Hgt.
    + injection Hrun as <- <-. eapply Hupd2; [..|done|done|done]; cbn; try done; congruence.
    + destruct (is_closer (ev_caps E r)).
      * destruct (ev_close E (h_w h) r) as [w err]. injection Hrun as <- <-.
        eapply Hupd2; [..|done|done|]; cbn; try done; try lia.
        rewrite total_read_app. pose proof (total_read_nonneg [EvClose r err]). lia.
      * injection Hrun as <- <-. eapply Hupd2; [..|done|done|done]; cbn; try done; lia.
  - cbn in Hgo. rewrite run_rseek, (run_sk_Seek _ _ _ _ _ _ _ _ Ho (proj1 Hgo)) in Hrun.
    destruct (seek_to (sc_length cm) (sb_offset b) offset whence) as [n [e|]] eqn:Hs.
    { injection Hrun as <- <-. done. }
    assert (Hn : 0 <= n <= sc_length cm).
    { unfold seek_to in Hs. repeat (match type of Hs with (if ?x then _ else _) = _ => destruct x eqn:? end; try done).
      cbv zeta in Hs. repeat (match type of Hs with (if ?x then _ else _) = _ => destruct x eqn:? end; try done).
      injection Hs as <-. lia. }
    injection Hrun as <- <-.
    eapply (Hupd _ {| sb_common := Some c; sb_err := None; sb_offset := n; sb_closed := false |} cm); cbn; try done; try lia; try congruence.
    by rewrite list_insert_id.
  - rewrite run_rread, (run_sk_ReadAt _ _ _ _ _ _ _ _ Ho) in Hrun.
    destruct (offset <? 0) eqn:Hneg; [injection Hrun as <- <-; done|].
    set (off := sk_clamp offset (sc_length cm)) in *.
    assert (Hoff : 0 <= off <= sc_length cm) by (unfold off, sk_clamp; gif; lia).
    destruct (sk_fetch r h p (sc_length cm) off) as [h1 o1] eqn:Hf.
    pose proof (sk_fetch_spec _ _ _ _ _ _ _ Hoff Hf) as (Hb1 & Hc1 & Hcase).
    assert (Hlog : total_read (h_log h) <= total_read (h_log h1)).
    { destruct Hcase as [(-> & _)|(_ & evs & n & e & -> & _)]; [lia|]. rewrite total_read_app.
      pose proof (total_read_nonneg evs). lia. }
    assert (h' = h1) as -> by (destruct o1 as [[[n p'] e]|e|]; congruence).
    by eapply wf_same.
  - cbn in Hrun. injection Hrun as <- <-. done.
  - rewrite run_rbody, (run_sk_Copy _ _ _ _ _ _ Ho) in Hrun. injection Hrun as <- <-.
    cbn in Hsz. rewrite zlen_app in Hsz. unfold zlen at 2 in Hsz. cbn in Hsz.
    pose proof (zlen_refs_le (h_b h) c) as Hle.
    assert (Hlen : (c < length (h_c h))%nat) by (by eapply lookup_lt_Some).
    eapply (wf_copy h _ (BSeeker b) c); try done; cbn [h_b h_c h_log set_c set_b].
    + cbn. rewrite sk_ncl0. split; [done|]. eexists c, _. split; [done|]. by apply list_lookup_insert.
    + cbn [wf_common sc_refcnt sc_s sc_length]. rewrite refs_new. rewrite decide_True by done.
      rewrite zlen_app. unfold zlen at 2. cbn [length]. rewrite wrap32_id by lia. split_and!; try done; try lia.
      * intros Hnil. by destruct (refs (h_b h) c).
      * intros _. by exists r.
    + intros j bj Hbj Hcj. pose proof (wf_b _ Hwf _ _ Hbj) as Hw.
      destruct bj as [|bj|bj|bj|bj|bj]; cbn in Hcj, Hw; try done; cbn.
      * destruct (sb_closed bj); [congruence|]. destruct Hw as (Hw & c' & y & Hc' & Hy). split; [done|].
        eexists c, _. split; [done|]. by apply list_lookup_insert.
      * destruct (rb_closed bj); [congruence|]. destruct Hw as (_ & c' & y & Hc' & Hy). congruence.
      * destruct (bb_closed bj); [congruence|]. destruct Hw as (_ & c' & y & Hc' & Hy & _). congruence.
  - rewrite run_rreader, (run_sk_Unwrap _ _ _ _ _ _ Ho) in Hrun. injection Hrun as <- <-. done.
Qed.

End Seeker.
