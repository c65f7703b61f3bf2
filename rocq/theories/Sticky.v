(** * Proof of C10: a failed Read stays failed *)
From stdpp Require Import gmap.
From Coq Require Import ZifyBool.
From Verif Require Import Own.

Section Sticky.
Context {W : Type} (E : env W) (fuel : nat).
Implicit Types h : heap W.

(** The shared object of [i] remembers the error [e]. *)
Definition common_err h (c : nat) (e : error) : Prop :=
  exists cm, h_c h !! c = Some (CBuffered cm) /\ bc_err cm = Some e.

Definition stuck h (i : nat) (e : error) : Prop :=
  exists b, h_b h !! i = Some b /\
  if shut b then e = ErrClosed else
  match b with
  | BClosed => False
  | BEmpty x => em_eof x = true /\ e = EOF
  | BBytes x => by_eof x = true /\ e = EOF
  | BSeeker x => sb_err x = Some e
  | BReaderAt x => rb_err x = Some e
  | BBuffered x => bb_eof x = true /\ exists c, bb_common x = Some c /\ common_err h c e
  end.

Lemma heap_eta h : set_b h (h_b h) = h.
Proof. by destruct h. Qed.

Lemma stuck_read h i e q :
  wf h -> feasible h -> zlen q <= max_slice -> stuck h i e -> exec E fuel h (Call i (Read q)) = (h, ORet (RRead 0 q (Some e))).
Proof.
  intros Hwf [Hf1 Hf2] Hq (b & Hi & Hs). destruct (shut b) eqn:Hsh.
  { rewrite (shut_exec E fuel h i b _ Hi Hsh). subst e. destruct b; done. }
  unfold exec. cbn [cmd_prog]. rewrite Hi. destruct b as [|b|b|b|b|b]; cbn in Hsh; cbn [method]; [done|..].
  - destruct Hs as [Hs ->]. unfold empty_Read. rs. rewrite Hsh. rs. rewrite Hs. cbn [orb]. rs.
    rewrite list_insert_id, heap_eta; [done|]. rewrite Hi. destruct b; cbn in *; congruence.
  - destruct Hs as [Hs ->]. unfold bytes_Read. rs. rewrite Hsh. rs. rewrite Hs. done.
  - destruct (sk_open_wf h i b Hwf Hi Hsh) as (c & cm & r & Ho). rewrite run_rread, (run_sk_Read E h i b c cm r q Ho), Hs. done.
  - destruct (ra_open_wf h i b Hwf Hi Hsh) as (c & cm & r & Ho). rewrite run_rread, (run_ra_Read E h i b c cm r q Ho), Hs. done.
  - destruct (bf_open_wf h i b Hwf Hi Hsh) as (c & cm & r & m & Ho). destruct Hs as [Hs (c' & Hc' & cm' & Hcm' & He)].
    pose proof Ho as [bf_b0 bf_ncl0 bf_c0 bf_cm0 bf_live0 bf_eof0]. rewrite bf_c0 in Hc'. injection Hc' as <-.
    rewrite bf_cm0 in Hcm'. injection Hcm' as <-. unfold max_slice in Hq.
    pose proof (wf_t _ Hwf _ _ bf_cm0) as Hbe.
    pose proof (run_bf_Read E fuel h i b c cm r m q Hwf Ho Hf1 ltac:(lia) ltac:(lia)) as HR. rewrite Hs in HR.
    rewrite run_rread, HR, He. done.
Qed.

Lemma read_sticks h i p h1 n p' e :
  wf h -> feasible h -> zlen p <= max_slice ->
  exec E fuel h (Call i (Read p)) = (h1, ORet (RRead n p' (Some e))) -> stuck h1 i e.
Proof.
  intros Hwf [Hf1 Hf2] Hp Hex.
  destruct (h_b h !! i) as [b|] eqn:Hi; [|unfold exec in Hex; cbn in Hex; rewrite Hi in Hex; done].
  assert (Hlt : (i < length (h_b h))%nat) by by eapply lookup_lt_Some.
  destruct (shut b) eqn:Hsh.
  { rewrite (shut_exec E fuel h i b _ Hi Hsh) in Hex. destruct (has_method b _); [|done]. injection Hex as <- <- <- <-.
    exists b. rewrite Hsh. done. }
  unfold exec in Hex. cbn [cmd_prog] in Hex. rewrite Hi in Hex.
  assert (Hput : forall h2 b', h_b h2 !! i = Some b' -> shut b' = false -> match b' with
    | BClosed => False | BEmpty x => em_eof x = true /\ e = EOF | BBytes x => by_eof x = true /\ e = EOF
    | BSeeker x => sb_err x = Some e | BReaderAt x => rb_err x = Some e
    | BBuffered x => bb_eof x = true /\ exists c, bb_common x = Some c /\ common_err h2 c e end -> stuck h2 i e).
  { intros h2 b' H1 H2 H3. exists b'. rewrite H2. done. }
  destruct b as [|b|b|b|b|b]; cbn in Hsh; cbn [method] in Hex; [done|..].
  - revert Hex. unfold empty_Read. rs. rewrite Hsh. rs. gif; rs; [|done]. intros [= <- _ _ <-].
    eapply Hput; [cbn; by apply list_lookup_insert|done|done].
  - pose proof (wf_b _ Hwf _ _ Hi) as [Hb1 Hb2].
    revert Hex. unfold bytes_Read. rs. rewrite Hsh. rs. destruct (by_eof b) eqn:Heof; rs.
    { intros [= <- _ _ <-]. eapply Hput; [exact Hi|done|done]. }
    pose proof (zlen_nonneg p) as Hp0.
    set (k := if zlen p >? zlen (by_data b) - by_offset b then _ else _).
    assert (Hk : 0 <= k <= zlen p /\ k <= zlen (by_data b) - by_offset b) by (unfold k; gif; lia).
    rewrite slice_ok by lia. rs. rewrite copy_into_ok; [|lia|rewrite zlen_take, zlen_drop; lia]. rs.
    destruct (zlen p >? zlen (by_data b) - by_offset b); [|done]. intros [= <- _ _ <-].
    eapply Hput; [cbn; by apply list_lookup_insert|done|done].
  - destruct (sk_open_wf h i b Hwf Hi Hsh) as (c & cm & r & Ho). rewrite run_rread, (run_sk_Read E h i b c cm r p Ho) in Hex.
    destruct (sb_err b) eqn:He.
    { injection Hex as <- _ _ <-. eapply Hput; [exact Hi|done|done]. }
    cbv zeta in Hex. destruct (sk_fetch E r h p _ _) as [h2 [[[n1 p1] e1]| |]] eqn:Hfe; [|done..].
    injection Hex as Hh _ _ ->. apply sk_fetch_log in Hfe as (Hb2 & _). rewrite <- Hh.
    eapply Hput; [rewrite Hb2; destruct (_ <? _); cbn; by apply list_lookup_insert|done|done].
  - destruct (ra_open_wf h i b Hwf Hi Hsh) as (c & cm & r & Ho). pose proof Ho as [ra_b0 ra_ncl0 ra_c0 ra_cm0 ra_r0 ra_at0 ra_off0 ra_len0].
    rewrite run_rread, (run_ra_Read E h i b c cm r p Ho) in Hex.
    destruct (rb_err b) eqn:He.
    { injection Hex as <- _ _ <-. eapply Hput; [exact Hi|done|done]. }
    cbv zeta in Hex. destruct (ra_fetch E r h p _ _) as [h2 [[[n1 p1] e1]| |]] eqn:Hfe; [|done..].
    injection Hex as Hh _ _ ->. apply ra_fetch_log in Hfe as (Hb2 & _); [|unfold ra_clamp; gif; lia]. rewrite <- Hh.
    eapply Hput; [rewrite Hb2; destruct (_ <? _); cbn; by apply list_lookup_insert|done|done].
  - destruct (bf_open_wf h i b Hwf Hi Hsh) as (c & cm & r & m & Ho).
    pose proof Ho as [bf_b0 bf_ncl0 bf_c0 bf_cm0 bf_live0 bf_eof0]. unfold max_slice in Hp.
    pose proof (wf_t _ Hwf _ _ bf_cm0) as Hbe.
    pose proof (run_bf_Read E fuel h i b c cm r m p Hwf Ho Hf1 ltac:(lia) ltac:(lia)) as HR.
    assert (Hlc : (c < length (h_c h))%nat) by by eapply lookup_lt_Some.
    rewrite run_rread in Hex. destruct (bb_eof b) eqn:Heof.
    { rewrite HR in Hex. injection Hex as <- _ _ He. eapply Hput; [exact Hi|done|]. split; [done|]. exists c. split; [done|]. exists cm. done. }
    destruct HR as (w' & evs & d & cm1 & pe & Hf & HR).
    destruct pe as [|e1| |]; [| |by rewrite HR in Hex..];
      destruct HR as (cm2 & Hre & Hn & HR); rewrite HR in Hex; injection Hex as <- _ _ He;
      (destruct (bb_offset b + zlen p >? buf_end cm1) eqn:Hgt; [|done]);
      (eapply Hput; [cbn; by apply list_lookup_insert|done|]); (split; [done|]); exists c; (split; [done|]);
      exists cm2; (split; [cbn; by apply list_lookup_insert|]); (destruct (_ && _) in Hre; [destruct Hre as (_ & -> & _); done|by subst cm2]).
Qed.

(** The remembered error stays as long as some handle uses the shared object. *)
Lemma common_err_stays h c h' o i cc e :
  wf h -> feasible h -> go_cmd c -> exec E fuel h c = (h', o) ->
  refers (h_b h') cc i -> common_err h cc e -> common_err h' cc e.
Proof.
  intros Hwf [Hf1 Hf2] Hgo Hex Hrf (cm & Hcm & He).
  assert (Hlc : (cc < length (h_c h))%nat) by by eapply lookup_lt_Some.
  assert (Hno : (exists j f, c = Call j f) \/ forall j f, c <> Call j f) by (destruct c; [left; eauto|right; done..]).
  destruct Hno as [(j & f & ->)|Hno].
  2:{ destruct (cons_effect E fuel h c h' o Hno Hex) as (evs & _ & _ & Hmade). exists cm. split; [|done].
      destruct Hmade as [(_ & ->)|[(b & _ & _ & ->)|(b & x & r & _ & _ & _ & _ & _ & -> & _)]]; [done|done|].
      by rewrite lookup_app_l. }
  destruct (h_b h !! j) as [b|] eqn:Hj.
  2:{ unfold exec in Hex. cbn in Hex. rewrite Hj in Hex. injection Hex as <- <-. by exists cm. }
  assert (Hjl : (j < length (h_b h))%nat) by by eapply lookup_lt_Some.
  destruct (decide (body_common b = Some cc)) as [Hbc|Hbc].
  2:{ destruct (call_effect E fuel h j b f h' o Hwf Hj Hgo (conj Hf1 Hf2) Hex) as (evs & _ & Heff). exists cm. split; [|done].
      destruct Heff as [f h' o evs b' _ _ _ Hc _ _ _|h' b' _ _ _ ->|c h' b' Hb _ _ _ Hc _|c h' b' Hb _ _ _ _ Hc _|c r h' b' err evs Hb _ _ _ _ _ Hc _ _];
        [rewrite Hc; done|done|rewrite Hc by congruence; done..]. }
  pose proof (wf_b _ Hwf _ _ Hj) as Hwb.
  destruct b as [|b|b|b|b|b]; cbn in Hbc; try done.
  { exfalso. cbn in Hwb. destruct (sb_closed b); naive_solver. }
  { exfalso. cbn in Hwb. destruct (rb_closed b); naive_solver. }
  assert (Hsh : bb_closed b = false).
  { destruct (bb_closed b) eqn:Hcl; [|done]. cbn in Hwb. rewrite Hcl in Hwb. naive_solver. }
  destruct (bf_open_wf h j b Hwf Hj Hsh) as (c & cm' & r & m & Ho). pose proof Ho as [bf_b0 bf_ncl0 bf_c0 bf_cm0 bf_live0 bf_eof0].
  rewrite Hbc in bf_c0. injection bf_c0 as <-. rewrite Hcm in bf_cm0. injection bf_cm0 as <-.
  pose proof (wf_t _ Hwf _ _ Hcm) as Hbe. pose proof bf_live0 as [L1 L2 L3 L4 L5 L6 L7 L8 L9].
  assert (Hsame : common_err h cc e) by (by exists cm).
  assert (Hnew : forall (h2 : heap W) cm2, h_c h2 = <[cc := CBuffered cm2]> (h_c h) -> bc_err cm2 = Some e -> common_err h2 cc e).
  { intros h2 cm2 H1 H2. exists cm2. split; [|done]. rewrite H1. by apply list_lookup_insert. }
  unfold exec in Hex. cbn [cmd_prog] in Hex. rewrite Hj in Hex. cbn in Hgo.
  destruct f; cbn [method] in Hex; cbn in Hgo.
  - rewrite run_rint, (run_bf_BytesRemaining _ _ _ _ _ _ _ _ Ho) in Hex. by injection Hex as <- <-.
  - unfold max_slice in Hgo. rewrite run_rread in Hex.
    pose proof (run_bf_Read E fuel h j b cc cm r m p Hwf Ho Hf1 ltac:(lia) ltac:(lia)) as HR.
    destruct (bb_eof b) eqn:Heof; [rewrite HR in Hex; by injection Hex as <- <-|].
    destruct HR as (w' & evs & d & cm1 & pe & Hf & HR).
    assert (cm1 = cm) as ->.
    { destruct Hf as [(_ & _ & _ & _ & -> & _)|(Hx & _)]; [done|congruence]. }
    destruct pe as [|e1| |].
    1,2: destruct HR as (cm2 & Hre & Hn & HR); rewrite HR in Hex; injection Hex as <- <-;
      (eapply (Hnew _ cm2); [done|]); (destruct (_ && _) in Hre; [destruct Hre as (_ & -> & _); done|by subst cm2]).
    1,2: rewrite HR in Hex; injection Hex as <- <-; by eapply (Hnew _ cm).
  - rewrite run_rerr in Hex. pose proof (run_bf_Close E h j b cc cm r m Hwf Ho Hf1) as HC. cbv zeta in HC.
    destruct (zlen m >? 1) eqn:Hm1.
    + destruct HC as (cm' & Hre & HC). rewrite HC in Hex. injection Hex as <- <-. eapply (Hnew _ cm'); [done|].
      destruct (_ =? _) in Hre; [destruct Hre as (_ & -> & _); done|by subst cm'].
    + exfalso. rewrite HC in Hex.
      assert (Hb' : h_b h' = <[j := closed_buffered]> (h_b h)).
      { destruct (is_closer _); [destruct (ev_close _ _ _) as [w err]|]; injection Hex as <- <-; done. }
      rewrite Hb' in Hrf. pose proof (bf_count_m _ _ _ _ _ _ _ Ho) as Hcnt.
      destruct (decide (i = j)) as [->|Hne].
      { unfold refers in Hrf. rewrite list_lookup_insert in Hrf by done. destruct Hrf as (x & [= <-] & Hx). done. }
      unfold refers in Hrf. rewrite list_lookup_insert_ne in Hrf by done. destruct Hrf as (x & Hx1 & Hx2).
      assert (Hi2 : i ∈ refs (h_b h) cc) by (apply elem_refs; by exists x).
      assert (Hj2 : j ∈ refs (h_b h) cc) by (apply elem_refs; by eexists).
      destruct (refs (h_b h) cc) as [|a [|a' l]] eqn:Hrefs.
      * by apply elem_of_nil in Hi2.
      * apply elem_of_list_singleton in Hi2. apply elem_of_list_singleton in Hj2. congruence.
      * rewrite !zlen_cons in Hcnt. pose proof (zlen_nonneg l). lia.
  - cbn in Hex. by injection Hex as <- <-.
  - cbn in Hex. by injection Hex as <- <-.
  - cbn in Hex. by injection Hex as <- <-.
  - rewrite run_rbody, (run_bf_Copy _ _ _ _ _ _ _ _ Hwf Ho) in Hex. injection Hex as <- <-. eapply Hnew; [done|]. done.
  - rewrite run_rreader, (run_bf_Unwrap _ _ _ _ _ _ _ _ Ho) in Hex. by injection Hex as <- <-.
Qed.

Lemma stuck_step h c h' o i e :
  wf h -> feasible h -> go_cmd c -> exec E fuel h c = (h', o) -> undisturbing i (c, o) ->
  stuck h i e -> stuck h' i e.
Proof.
  intros Hwf Hf Hgo Hex Hun (b & Hi & Hs).
  assert (Hlt : (i < length (h_b h))%nat) by by eapply lookup_lt_Some.
  destruct (shut b) eqn:Hsh.
  { exists b. rewrite Hsh. split; [|done]. by eapply shut_stays. }
  assert (Hkeep : h_b h' !! i = Some b -> stuck h' i e).
  { intros Hi'. exists b. split; [done|]. rewrite Hsh. destruct b as [|b|b|b|b|b]; try done.
    destruct Hs as [Hs (c1 & Hc1 & Hce)]. split; [done|]. exists c1. split; [done|].
    eapply (common_err_stays h c h' o i c1 e Hwf Hf Hgo Hex); [|done]. exists (BBuffered b). done. }
  destruct (exec_frame E _ _ _ _ _ Hex) as [_ Hfr].
  assert (Hno : (exists f, c = Call i f) \/ forall f, c <> Call i f).
  { destruct c as [j f| | | | | | |]; try (by right). destruct (decide (j = i)) as [->|Hne]; [left; eauto|right; congruence]. }
  destruct Hno as [(f & ->)|Hno]; [|by apply Hkeep, Hfr].
  destruct Hf as [Hf1 Hf2].
  assert (Happ : forall x, h_b h' = h_b h ++ [x] -> h_b h' !! i = Some b) by (intros x ->; by rewrite lookup_app_l).
  assert (Hrd : forall p, f = Read p -> stuck h' i e).
  { intros p ->. cbn in Hgo. rewrite (stuck_read h i e p) in Hex; [|done|split; done|done|exists b; by rewrite Hsh].
    injection Hex as <- <-. by apply Hkeep. }
  destruct f as [|p| |off wh|p off|wr| |]; [|by eapply Hrd|cbn in Hun; done|..]; clear Hrd.
  all: unfold exec in Hex; cbn [cmd_prog] in Hex; rewrite Hi in Hex.
  all: destruct b as [|b|b|b|b|b]; cbn in Hsh; cbn [method] in Hex; try done; try (by injection Hex as <- <-; apply Hkeep).
  (* in memory *)
  all: try (unfold empty_BytesRemaining, empty_Seek, empty_ReadAt, empty_WriteTo, empty_Copy, bytes_BytesRemaining, bytes_Copy in Hex;
    revert Hex; rs; rewrite ?Hsh; rs; repeat (gif; rs); intros [= <- <-]; first [by apply Hkeep|by apply Hkeep; eapply Happ|by cbn in Hun]).
  all: try (destruct (sk_open_wf h i b Hwf Hi Hsh) as (cc & cm & r & Ho);
    pose proof Ho as [sk_b0 sk_ncl0 sk_c0 sk_cm0 sk_r0 sk_off0 sk_len0]).
  all: try (destruct (ra_open_wf h i b Hwf Hi Hsh) as (cc & cm & r & Ho);
    pose proof Ho as [ra_b0 ra_ncl0 ra_c0 ra_cm0 ra_r0 ra_at0 ra_off0 ra_len0]).
  all: try (destruct (bf_open_wf h i b Hwf Hi Hsh) as (cc & cm & r & m & Ho)).
  - rewrite run_rint, (run_sk_BytesRemaining _ _ _ _ _ _ _ Ho) in Hex. injection Hex as <- <-. by apply Hkeep.
  - rewrite run_rint, (run_ra_BytesRemaining _ _ _ _ _ _ _ Ho) in Hex. injection Hex as <- <-. by apply Hkeep.
  - rewrite run_rint, (run_bf_BytesRemaining _ _ _ _ _ _ _ _ Ho) in Hex. injection Hex as <- <-. by apply Hkeep.
  - revert Hex. unfold bytes_Seek. rs. rewrite Hsh. rs. repeat (gif; rs); intros [= <- <-]; first [by apply Hkeep|by cbn in Hun].
  - rewrite run_rseek, (run_sk_Seek _ _ _ _ _ _ _ _ _ Ho) in Hex by apply Hgo. destruct (seek_to _ _ _ _) as [n [err|]]; injection Hex as <- <-; [by apply Hkeep|by cbn in Hun].
  - rewrite run_rseek, (run_ra_Seek _ _ _ _ _ _ _ _ _ Ho) in Hex by apply Hgo. destruct (seek_to _ _ _ _) as [n [err|]]; injection Hex as <- <-; [by apply Hkeep|by cbn in Hun].
  - revert Hex. unfold bytes_ReadAt. rs. rewrite Hsh. rs. gif; rs; [intros [= <- <-]; by apply Hkeep|].
    destruct (slice _ _ _); rs; [|intros [= <- <-]; by apply Hkeep].
    destruct (copy_into _ _ _ _); rs; intros [= <- <-]; by apply Hkeep.
  - rewrite run_rread, (run_sk_ReadAt E h i b cc cm r p off Ho) in Hex. destruct (off <? 0); [injection Hex as <- <-; by apply Hkeep|].
    destruct (sk_fetch E r h p _ _) as [h1 o1] eqn:Hfe. apply sk_fetch_log in Hfe as (Hb1 & _).
    apply Hkeep. assert (h' = h1) as -> by (destruct o1 as [[[n1 p1] e1]| |]; injection Hex as <- <-; done). by rewrite Hb1.
  - rewrite run_rread, (run_ra_ReadAt E h i b cc cm r p off Ho) in Hex. destruct (off <? 0) eqn:Hneg; [injection Hex as <- <-; by apply Hkeep|].
    destruct (ra_fetch E r h p _ _) as [h1 o1] eqn:Hfe. apply ra_fetch_log in Hfe as (Hb1 & _); [|unfold ra_clamp; gif; lia].
    apply Hkeep. assert (h' = h1) as -> by (destruct o1 as [[[n1 p1] e1]| |]; injection Hex as <- <-; done). by rewrite Hb1.
  - destruct Hs as [Hs ->]. revert Hex. unfold bytes_WriteTo. rs. rewrite Hsh. rs. rewrite Hs. rs. intros [= <- <-]. by apply Hkeep.
  - rewrite run_rbody, (run_sk_Copy _ _ _ _ _ _ _ Ho) in Hex. injection Hex as <- <-. apply Hkeep. by eapply Happ.
  - rewrite run_rbody, (run_ra_Copy _ _ _ _ _ _ _ Ho) in Hex. injection Hex as <- <-. apply Hkeep. by eapply Happ.
  - rewrite run_rbody, (run_bf_Copy _ _ _ _ _ _ _ _ Hwf Ho) in Hex. injection Hex as <- <-. apply Hkeep. by eapply Happ.
  - rewrite run_rreader, (run_sk_Unwrap _ _ _ _ _ _ _ Ho) in Hex. injection Hex as <- <-. by apply Hkeep.
  - rewrite run_rreader, (run_ra_Unwrap _ _ _ _ _ _ _ Ho) in Hex. injection Hex as <- <-. by apply Hkeep.
  - rewrite run_rreader, (run_bf_Unwrap _ _ _ _ _ _ _ _ Ho) in Hex. injection Hex as <- <-. by apply Hkeep.
Qed.

Lemma stuck_history i e cs : forall h h' os,
  go_env E -> wf h -> Forall go_cmd cs -> history E fuel h cs = (h', os) -> feasible h' ->
  Forall (undisturbing i) (zip cs os) -> stuck h i e -> stuck h' i e /\ wf h'.
Proof.
  induction cs as [|c cs IH]; intros h h' os Hge Hwf Hgo H Hf Hun Hs; cbn in H; [by injection H as <- <-|].
  apply Forall_cons in Hgo as [Hc Hgo]. destruct (exec E fuel h c) as [h1 o] eqn:Hex.
  assert (Hstep : feasible h1 -> undisturbing i (c, o) -> stuck h1 i e /\ wf h1).
  { intros Hf1 Hu. split; [|by eapply exec_wf]. eapply stuck_step; try done. by eapply exec_feasible. }
  assert (Hgen : forall os', history E fuel h1 cs = (h', os') -> os = o :: os' -> stuck h' i e /\ wf h').
  { intros os' Hh ->. cbn in Hun. apply Forall_cons in Hun as [Hu Hun].
    destruct Hstep as [Hs1 Hwf1]; [by eapply history_feasible|done|]. by eapply IH. }
  destruct o.
  - destruct (history E fuel h1 cs) as [h2 os'] eqn:Hh. injection H as <- <-. by eapply Hgen.
  - destruct (history E fuel h1 cs) as [h2 os'] eqn:Hh. injection H as <- <-. by eapply Hgen.
  - injection H as <- <-. cbn in Hun. apply Forall_cons in Hun as [Hu _]. auto.
Qed.

Lemma failed_stays h i p h1 n p' e cs h2 os q :
  go_env E -> reaches E fuel h -> zlen p <= max_slice ->
  exec E fuel h (Call i (Read p)) = (h1, ORet (RRead n p' (Some e))) ->
  Forall go_cmd cs -> history E fuel h1 cs = (h2, os) -> feasible h2 ->
  Forall (undisturbing i) (zip cs os) -> zlen q <= max_slice ->
  exec E fuel h2 (Call i (Read q)) = (h2, ORet (RRead 0 q (Some e))).
Proof.
  intros Hge Hr Hp Hex Hgo Hh Hf Hun Hq. apply reaches_wf in Hr as [Hwf Hf0]; [|done].
  assert (Hf1 : feasible h1) by by eapply history_feasible.
  assert (Hwf1 : wf h1) by (eapply (exec_wf E fuel h (Call i (Read p))); done).
  pose proof (read_sticks h i p h1 n p' e Hwf Hf0 Hp Hex) as Hs.
  destruct (stuck_history i e cs h1 h2 os) as [Hs2 Hwf2]; try done. by apply stuck_read.
Qed.
End Sticky.
