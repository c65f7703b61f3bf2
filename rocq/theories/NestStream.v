(** * Proofs for a Body of a streaming Body *)
From stdpp Require Import gmap.
From Coq Require Import ZifyBool.
From Verif Require Import NestProofs NestSpec NestMain.
From Verif Require Import Stream ProofsStream Own Preserve Fuel.

(** ** A Reader that streams as long as it lives *)
Section Contract.
Context {W : Type} (E : env W) (fuel : nat).
Context (r : rid) (live : W -> Prop) (gp : W -> nat) (d : bytes) (e : error).
Hypothesis Hst : streams_while E r live gp d e.
Implicit Types h : heap W.

Definition orderly (L : list event) : Prop :=
  forall before ev after, L = before ++ ev :: after -> modest ev /\ Forall not_close before.
Definition kept (g : nat) (L : list event) : Prop :=
  stream L = take g d /\ (g <= length d)%nat /\ Forall (fun ev => ~ lies ev) L /\
  (forall e', first_error L = Some e' -> e' = e /\ g = length d).
Definition follows_stream h : Prop :=
  let L := calls_on r (h_log h) in
  orderly L -> exists g, kept g L /\ (Forall not_close L -> g = gp (h_w h) /\ live (h_w h)).

Lemma orderly_snoc L ev : orderly (L ++ [ev]) -> orderly L /\ modest ev /\ Forall not_close L.
Proof.
  intros H. split; [|by apply (H L ev [])]. intros b x a ->. apply (H b x (a ++ [ev])). by rewrite <- app_assoc.
Qed.
Lemma polite_orderly D L : polite r D L -> orderly L.
Proof. intros H b ev a Heq. destruct (H b ev a Heq) as [H1 H2]. split; [by destruct ev|done]. Qed.
Lemma kept_read g L p n q err w w' :
  kept g L -> g = gp w -> live w -> ev_read E w r p = (w', (n, q, err)) ->
  kept (gp w') (L ++ [EvRead r (zlen p) n (take (Z.to_nat n) (fit p q)) err]) /\ live w'.
Proof.
  intros (H1 & H2 & H3 & H4) -> Hl Hr. destruct (sw_read _ _ _ _ _ _ Hst _ _ _ _ _ _ Hl Hr) as (Hl' & Hn & Hg & Hd & Hq & He).
  split; [|done]. set (got := take (Z.to_nat n) (fit p q)).
  assert (Hgot : got = take (Z.to_nat n) (drop (gp w) d)).
  { rewrite <- Hq. unfold got, fit. rewrite take_take. unfold zlen in Hn. replace (_ `min` _)%nat with (Z.to_nat n) by lia.
    assert (Hlq : (Z.to_nat n <= length q)%nat).
    { apply (f_equal length) in Hq. rewrite !take_length, drop_length in Hq. lia. }
    by rewrite take_app_le. }
  set (ev := EvRead r (zlen p) n got err).
  assert (Hev : ev_data ev = got /\ ev_error ev = err).
  { unfold ev. cbn. replace ((0 <=? n) && (n <=? zlen p)) with true by lia. done. }
  destruct Hev as [Hev1 Hev2]. unfold kept. rewrite stream_app. unfold stream at 2. cbn [map concat]. rewrite Hev1, app_nil_r, H1, Hgot.
  split; [|split; [done|split]].
  - rewrite Hg. rewrite <- (take_drop (gp w) d) at 3. rewrite take_app_ge; rewrite take_length_le by lia; [|lia].
    f_equal. f_equal. lia.
  - apply Forall_app. split; [done|]. constructor; [|constructor]. cbn. lia.
  - intros e'. rewrite first_error_app. cbn [first_error]. rewrite Hev2.
    destruct (first_error L) as [e0|] eqn:Hfe.
    + intros [= <-]. destruct (H4 _ eq_refl) as [-> Hgl]. split; [done|]. lia.
    + destruct He as [[-> _]|[-> Hgl]]; [done|]. intros [= <-]. done.
Qed.
Lemma kept_none g L ev : kept g L -> stream [ev] = [] -> first_error [ev] = None -> ~ lies ev -> kept g (L ++ [ev]).
Proof.
  intros (H1 & H2 & H3 & H4) Hs Hfe Hnl. unfold kept. rewrite stream_app, Hs, app_nil_r, first_error_app, Hfe. split_and!; try done.
  - apply Forall_app. split; [done|]. by constructor.
  - intros e' He'. apply H4. destruct (first_error L); congruence.
Qed.
Lemma calls_on_one ev : ev_reader ev = Some r -> calls_on r [ev] = [ev].
Proof. intros H. unfold calls_on. by rewrite filter_cons, decide_True. Qed.

Lemma fs_other h h' ev :
  h_log h' = h_log h ++ [ev] -> ev_reader ev <> Some r -> (live (h_w h) -> quiet live gp (h_w h) (h_w h')) -> follows_stream h -> follows_stream h'.
Proof.
  intros Hl Hr Hq Hf. unfold follows_stream. rewrite Hl, calls_on_app, (calls_on_none r [ev]), app_nil_r by by constructor.
  intros Ho. destruct (Hf Ho) as (g & Hk & Hnc). exists g. split; [done|]. intros H. destruct (Hnc H) as [-> Hlv]. by destruct (Hq Hlv).
Qed.
Lemma fs_own h h' ev :
  h_log h' = h_log h ++ [ev] -> ev_reader ev = Some r -> match ev with EvStat _ _ _ => live (h_w h) -> quiet live gp (h_w h) (h_w h') | EvClose _ _ => True | _ => ~ modest ev end ->
  follows_stream h -> follows_stream h'.
Proof.
  intros Hl Hr Hq Hf. unfold follows_stream. rewrite Hl, calls_on_app, calls_on_one by done.
  intros (Ho & Hm & Hnc)%orderly_snoc. destruct (Hf Ho) as (g & Hk & Hlv). destruct (Hlv Hnc) as [-> Hlive].
  exists (gp (h_w h)). split; [destruct ev; try done; (apply kept_none; [done|done|done|by intros [] ])|].
  intros [_ Hn]%Forall_app. apply Forall_cons in Hn as [Hn _]. destruct ev; try done. by destruct (Hq Hlive).
Qed.

Lemma act_fs {A} h (a : act A) h' x : act_step E h a = Some (h', x) -> follows_stream h -> follows_stream h'.
Proof.
  destruct a; cbn; try (intros [= <- _]; done).
  - destruct (h_b h !! i); [|done]. by intros [= <- _].
  - destruct (h_b h !! i); [|done]. by intros [= <- _].
  - destruct (h_c h !! c); [|done]. by intros [= <- _].
  - destruct (h_c h !! c); [|done]. by intros [= <- _].
  - destruct (ev_read E (h_w h) r0 p) as [w' [[n q] err]] eqn:Hr. intros [= <- _]. destruct (decide (r0 = r)) as [->|Hne].
    + intros Hf. unfold follows_stream. cbn [emit h_log h_w]. rewrite calls_on_app, calls_on_one by done.
      intros (Ho & Hm & Hnc)%orderly_snoc. destruct (Hf Ho) as (g & Hk & Hlv). destruct (Hlv Hnc) as [-> Hlive].
      destruct (kept_read _ _ _ _ _ _ _ _ Hk eq_refl Hlive Hr) as [Hk' Hl']. eauto.
    + eapply fs_other; [done|cbn; congruence|]. intros Hl. pose proof (sw_read_other _ _ _ _ _ _ Hst _ r0 p Hne Hl) as Hq. by rewrite Hr in Hq.
  - destruct (ev_readat E (h_w h) r0 p off) as [w' [[n q] err]] eqn:Hr. intros [= <- _]. destruct (decide (r0 = r)) as [->|Hne].
    + eapply fs_own; [done|done|]. cbn. tauto.
    + eapply fs_other; [done|cbn; congruence|]. intros Hl. pose proof (sw_readat _ _ _ _ _ _ Hst _ r0 p off Hne Hl) as Hq. by rewrite Hr in Hq.
  - destruct (ev_seek E (h_w h) r0 off whence) as [w' [n err]] eqn:Hr. intros [= <- _]. destruct (decide (r0 = r)) as [->|Hne].
    + eapply fs_own; [done|done|]. cbn. tauto.
    + eapply fs_other; [done|cbn; congruence|]. intros Hl. pose proof (sw_seek _ _ _ _ _ _ Hst _ r0 off whence Hne Hl) as Hq. by rewrite Hr in Hq.
  - destruct (ev_close E (h_w h) r0) as [w' err] eqn:Hr. intros [= <- _]. destruct (decide (r0 = r)) as [->|Hne].
    + by eapply fs_own.
    + eapply fs_other; [done|cbn; congruence|]. intros Hl. pose proof (sw_close _ _ _ _ _ _ Hst _ r0 Hne Hl) as Hq. by rewrite Hr in Hq.
  - destruct (ev_stat E (h_w h) r0) as [w' [n err]] eqn:Hr. intros [= <- _].
    assert (Hq : live (h_w h) -> quiet live gp (h_w h) w') by (intros Hl; pose proof (sw_stat _ _ _ _ _ _ Hst _ r0 Hl) as Hq; by rewrite Hr in Hq).
    destruct (decide (r0 = r)) as [->|Hne]; [by eapply fs_own|by eapply fs_other; [done|cbn; congruence|]].
  - destruct (ev_write E (h_w h) w p) as [w' y] eqn:Hr. intros [= <- _]. eapply fs_other; [done|done|].
    intros Hl. pose proof (sw_write _ _ _ _ _ _ Hst _ w p Hl) as Hq. by rewrite Hr in Hq.
Qed.
Lemma run_fs {A} (m : prog A) : forall h h' o, run E h m = (h', o) -> follows_stream h -> follows_stream h'.
Proof.
  induction m as [a|ex| |X a k IH]; intros h h' o; cbn [run]; try (intros [= <- _]; done).
  destruct (act_step E h a) as [[h1 x]|] eqn:Ha; [|intros [= <- _]; done].
  intros Hr Hs. eapply IH; [exact Hr|]. by eapply act_fs.
Qed.
Lemma history_fs cs : forall h h' os, history E fuel h cs = (h', os) -> follows_stream h -> follows_stream h'.
Proof.
  induction cs as [|c cs IH]; intros h h' os H Hs; cbn [history] in H; [by injection H as <- <-|].
  destruct (exec E fuel h c) as [h1 o] eqn:Hex. unfold exec in Hex. apply run_fs in Hex; [|done].
  destruct o; [destruct (history E fuel h1 cs) as [h2 os'] eqn:Hh..|]; injection H as <- <-; eauto.
Qed.

Lemma wrapped_fs w h1 i cs h2 os :
  live w -> gp w = 0%nat -> wrapped_once E fuel r w h1 i cs h2 os -> follows_stream h2.
Proof.
  intros Hl H0 (Hge & cs0 & os0 & h0 & new & Hgo & Hnw & Hw & Hh0 & Hh1 & Hh2 & Hf).
  eapply history_fs; [exact Hh2|]. unfold exec in Hh1. eapply run_fs; [exact Hh1|]. eapply history_fs; [exact Hh0|].
  intros _. exists 0%nat. cbn. split; [|by rewrite H0]. split; [by rewrite take_0|]. split; [lia|]. split; [constructor|done].
Qed.

(** As [ProofsStream.faithful]. *)
Lemma faithful_while w h1 i cs h2 os D :
  live w -> gp w = 0%nat -> wrapped_once E fuel r w h1 i cs h2 os -> streaming E fuel r h1 i D ->
  exists e', end_error D d e e' /\
  stream_trace False (final_answer D (cut D d) (Some e') r) {[ i := At 0 false ]} cs os.
Proof.
  intros Hl H0 Hw HD. pose proof (one_stream E fuel r w h1 i cs h2 os D Hw HD) as Htr. cbv zeta in Htr.
  pose proof (polite_reader E fuel r w h1 i cs h2 os D Hw HD) as [Hpol Hle].
  destruct (wrapped_fs w h1 i cs h2 os Hl H0 Hw (polite_orderly _ _ Hpol)) as (g & Hk & _).
  eapply (faithful_end r (fun _ => g) d e h2); try done. intros _. exact Hk.
Qed.

(** The stream has ended where it should. *)
Lemma terminal_cut D g L e' : kept g L -> (0 <= D -> zlen (stream L) <= D) -> terminal D L = Some e' -> stream L = cut D d /\ end_error D d e e'.
Proof.
  intros (S1 & S2 & S3 & S4) Hle Hte. unfold terminal in Hte. unfold cut, end_error.
  assert (Hlen : length (stream L) = g) by (rewrite S1, take_length; lia).
  destruct (first_error L) as [e0|] eqn:Hfe.
  - injection Hte as <-. destruct (S4 _ eq_refl) as [-> Hg]. rewrite S1. rewrite Hg, take_ge by lia.
    assert (HDd : 0 <= D -> zlen d <= D) by (intros HD0; specialize (Hle HD0); unfold zlen in *; lia).
    split; [|left; split; [lia|done]]. destruct (0 <=? D) eqn:HD0; [|done]. rewrite take_ge; [done|]. unfold zlen in HDd. lia.
  - destruct (_ && _) eqn:Hx; [|done]. injection Hte as <-. replace (0 <=? D) with true by lia. unfold zlen in *.
    split; [|right; split; [lia|done]]. rewrite S1. f_equal. lia.
Qed.
Lemma kept_prefix D g L : kept g L -> (0 <= D -> zlen (stream L) <= D) -> exists x, cut D d = stream L ++ x.
Proof.
  intros (S1 & S2 & S3 & S4) Hle. assert (Hlen : length (stream L) = g) by (rewrite S1, take_length; lia).
  unfold cut. rewrite S1 in *. destruct (0 <=? D) eqn:HD0.
  - exists (take (Z.to_nat D - g) (drop g d)).
    rewrite <- (take_drop g d) at 1.
    assert (HDd : (g <= Z.to_nat D)%nat) by (specialize (Hle ltac:(lia)); unfold zlen in *; lia).
    rewrite take_app_ge; rewrite take_length_le by lia; [done|lia].
  - exists (drop g d). by rewrite take_drop.
Qed.

(** ** One fetch *)
Lemma pulls_kept w want w' evs d' pe : pulls E r w want w' evs d' pe ->
  forall L, live w -> kept (gp w) L ->
  live w' /\ kept (gp w') (L ++ evs) /\ pe <> PBad /\ (gp w' = gp w + length d')%nat.
Proof.
  induction 1 as [w want Hw|w want Hw|w want buf w' n q e1 Hw Hb Hr Hn|w want buf w' n q e1 Hw Hb Hr Hn
    |w want buf w1 n q w' evs d' pe Hw Hb Hr Hn Hp IH]; intros L Hl Hk.
  1,2: rewrite app_nil_r; split_and!; try done; cbn; lia.
  - exfalso. destruct (sw_read _ _ _ _ _ _ Hst _ _ _ _ _ _ Hl Hr) as (_ & Hn' & _). lia.
  - destruct (kept_read _ _ _ _ _ _ _ _ Hk eq_refl Hl Hr) as [Hk' Hl']. rewrite Hb in Hk'. split_and!; try done.
    destruct (sw_read _ _ _ _ _ _ Hst _ _ _ _ _ _ Hl Hr) as (_ & _ & -> & _).
    pose proof (zlen_fit buf q) as Hz. rewrite take_length. unfold zlen in *. lia.
  - destruct (kept_read _ _ _ _ _ _ _ _ Hk eq_refl Hl Hr) as [Hk' Hl']. rewrite Hb in Hk'.
    destruct (IH _ Hl' Hk') as (I1 & I2 & I3 & I4). rewrite <- app_assoc in I2. split_and!; try done.
    destruct (sw_read _ _ _ _ _ _ Hst _ _ _ _ _ _ Hl Hr) as (_ & _ & Hg & _).
    pose proof (zlen_fit buf q) as Hz. rewrite app_length, take_length. unfold zlen in *. lia.
Qed.

(** No Read makes more calls than there are bytes, and one. *)
Lemma fill_stream n : forall h c bufNew x y bg en cm,
  h_c h !! c = Some (CBuffered cm) -> bc_r cm = Some r -> live (h_w h) -> (gp (h_w h) <= length d)%nat -> (length d - gp (h_w h) < n)%nat ->
  snd (run E h (buffered_fill n c bufNew x y bg en)) <> OSpin.
Proof.
  induction n as [|n IH]; intros h c bufNew x y bg en cm Hc Hrc Hl Hg Hle; [lia|].
  cbn [buffered_fill]. destruct (y >? 0) eqn:Hb; [|done].
  unfold ldBufferedC. cbn [perform bind run act_step]. rewrite Hc. cbn [bind]. rewrite Hrc. cbn [of_option bind].
  destruct (slice bufNew x (x + y)) as [bf|] eqn:Hs; cbn [of_option bind]; [|done].
  assert (Hne : bf <> []). { intros ->. apply slice_len in Hs. unfold zlen in Hs. cbn in Hs. lia. }
  cbn [perform bind run act_step].
  destruct (ev_read E (h_w h) r bf) as [w1 [[m q] err]] eqn:Hr.
  destruct (sw_read _ _ _ _ _ _ Hst _ _ _ _ _ _ Hl Hr) as (Hl1 & Hn & Hg1 & Hg2 & _ & He).
  rewrite run_bind, run_assert. destruct (m >=? 0) eqn:H0; [|done]. rewrite run_bind, run_assert. destruct (m <=? y) eqn:H1; [|done].
  rewrite run_bind, run_of_option. destruct (slice _ 0 _); [|done]. destruct err as [e1|].
  - cbn [perform bind run act_step]. destruct (h_c _ !! c); done.
  - destruct He as [[_ He]|[? _]]; [|done]. assert (m <> 0) by (intros ->; auto).
    cbn [perform bind run act_step]. destruct (h_c _ !! c) eqn:Hc1; [|done].
    eapply IH; cbn [set_c emit h_c h_w]; [apply list_lookup_insert; by eapply lookup_lt_Some|done|done|done|lia].
Qed.
End Contract.

(** ** A streaming Body below *)
Section Lower.
Context {W : Type} (E : env W) (fuel : nat) (i : nat) (b : bobj) (g : rid -> rid).
Context (r : rid) (live : W -> Prop) (gp : W -> nat) (d : bytes) (e : error) (D : Z) (c : nat) (pos0 : nat) (e1 : error) (sole : Prop).
Hypothesis Hst : streams_while E r live gp d e.
Hypothesis Hge : go_env E.
Hypothesis Hfuel : (length d < fuel)%nat.
Hypothesis Hend : forall x, end_error D d e x -> x = e1.
Hypothesis Hg : forall n, g n <> r.
Implicit Types h : heap W.
Let dd := drop pos0 (cut D d).

Definition spos h : nat := match h_b h !! i with Some (BBuffered x) => Z.to_nat (bb_offset x) | _ => 0%nat end.
Record sgood h : Prop := {
  sg_inv : exists t pos ended, stream_inv r c D t h /\ t !! i = Some (At pos ended) /\ (pos0 <= pos)%nat /\
    (sole -> forall j, open_table t !! j = Some true -> j = i);
  sg_kept : kept d e (gp (h_w h)) (calls_on r (h_log h));
  sg_live : live (h_w h);
  sg_size : zlen (h_b h) < 2 ^ 31;
  sg_room : total_read (h_log h) + zlen d - Z.of_nat (gp (h_w h)) <= 2 ^ 62
}.

Lemma fetch_stream h cm upto :
  h_c h !! c = Some (CBuffered cm) -> bc_r cm = Some r -> live (h_w h) -> (gp (h_w h) <= length d)%nat ->
  upto - buf_end cm <= 2 ^ 62 -> bc_length cm = -1 \/ buf_end cm <= bc_length cm ->
  snd (run E h (buffered_fetch fuel c (bc_start cm) (buf_end cm) upto)) <> OSpin.
Proof.
  intros Hc Hr Hl Hgp Hup Hlen. unfold buffered_fetch. rs.
  destruct (match bc_err cm with Some _ => false | None => upto >? buf_end cm end) eqn:Hcond; [|done].
  assert (Hgt : buf_end cm < upto) by (destruct (bc_err cm); [done|lia]).
  pose proof (round_block_spec (upto - buf_end cm) ltac:(lia)) as [Hrb _].
  set (nr := round_block (upto - buf_end cm)) in *.
  assert (Hsel : exists want e, (0 <= want <= nr) /\ run E h (if bc_length cm >=? 0 then
         assert (buf_end cm <=? bc_length cm) ;;;
         Ret (if nr >=? bc_length cm - buf_end cm then (bc_length cm - buf_end cm, true) else (nr, false))
       else Ret (nr, false)) = (h, ORet (want, e))).
  { destruct (bc_length cm >=? 0) eqn:Hlz; [|exists nr, false; split; [lia|done]].
    rs. destruct (buf_end cm <=? bc_length cm) eqn:Hle; [|lia]. rs. gif; eexists _, _; (split; [|done]); lia. }
  destruct Hsel as (want & e0 & Hw & Hsel). rewrite run_bind, Hsel. cbv beta iota zeta.
  gif; [done|]. rewrite run_bind, run_of_option. destruct (slice _ 0 _); [|done].
  rewrite run_bind, run_of_option. destruct (copy_into _ _ _ _); [|done].
  rewrite run_bind, run_of_option. destruct (slice _ 0 _); [|done].
  erewrite run_bind, run_StoreC by done. cbv beta iota.
  apply run_bind_returns.
  - eapply (fill_stream E r live gp d e Hst); cbn [set_c h_c h_w]; [apply list_lookup_insert; by eapply lookup_lt_Some|done|done|done|lia].
  - intros x. sl.
Qed.

Lemma read_stream_returns h p bb cm m :
  Verif.Wf.wf h -> bf_open h i bb c cm r m -> live (h_w h) -> (gp (h_w h) <= length d)%nat -> zlen p <= 2 ^ 61 -> buf_end cm <= 2 ^ 62 ->
  snd (run E h (buffered_Read fuel i p)) <> OSpin.
Proof.
  intros Hwf Ho Hl Hgp Hp Hbe. pose proof (bf_off_bounds _ _ _ _ _ _ _ Ho) as Hob.
  destruct Ho as [bf_b0 bf_ncl0 bf_c0 bf_cm0 bf_live0 bf_eof0]. destruct bf_live0 as [L1 L2 L3 L4 L5 L6 L7 L8 L9].
  pose proof (zlen_nonneg p) as Hp0.
  unfold buffered_Read. rs. rewrite bf_ncl0. rs. rewrite bf_c0. rs.
  destruct (bb_eof bb) eqn:Heof; [rs; done|]. cbv zeta.
  rewrite wrap64_id by (unfold min_i64, max_i64; lia). fold (buf_end cm).
  rewrite run_bind, run_assert. destruct (bb_offset bb >=? bc_start cm); [|done].
  apply run_bind_returns; [|intros y; sl; apply sl_updateStart_loop].
  apply fetch_stream; try done; lia.
Qed.

Lemma sg_open h : sgood h -> exists t pos ended cm m,
  stream_inv r c D t h /\ t !! i = Some (At pos ended) /\ (pos0 <= pos)%nat /\
  bf_open h i {| bb_common := Some c; bb_offset := Z.of_nat pos; bb_eof := ended; bb_closed := false |} c cm r m /\
  buf_end cm <= 2 ^ 62 /\ (gp (h_w h) <= length d)%nat /\ feasible h /\ spos h = pos /\ ~ all_closed (open_table t).
Proof.
  intros [(t & pos & ended & Hsi & Hi & Hp & _) Hk Hl Hsz Hrm]. exists t, pos, ended.
  pose proof (si_at _ _ _ _ _ Hsi _ _ _ Hi) as Hb. pose proof (ow_wf _ _ _ _ (si_own _ _ _ _ _ Hsi)) as Hwf.
  destruct (bf_open_wf h i _ Hwf Hb eq_refl) as (c' & cm & r' & m & Ho). pose proof (bf_c _ _ _ _ _ _ _ Ho) as Hc. injection Hc as <-.
  assert (Hna : ~ all_closed (open_table t)) by (intros Ha; apply (Ha i), open_lookup; eauto).
  assert (r' = r) as ->.
  { pose proof (ow_rd _ _ _ _ (si_own _ _ _ _ _ Hsi) Hna) as Hrd. unfold reader_at in Hrd. rewrite (bf_cm _ _ _ _ _ _ _ Ho) in Hrd. cbn in Hrd.
    rewrite (lb_r _ _ _ _ _ (bf_live _ _ _ _ _ _ _ Ho)) in Hrd. congruence. }
  exists cm, m. destruct Hk as (_ & Hgl & _). pose proof (wf_t _ Hwf _ _ (bf_cm _ _ _ _ _ _ _ Ho)) as Ht. unfold zlen in Hrm.
  split_and!; try done; [lia|split; [done|lia]|]. unfold spos. rewrite Hb. cbn. lia.
Qed.

Lemma s_read h p : sgood h -> zlen p <= 2 ^ 61 ->
  exists h' n q err, exec E fuel h (Call i (Read p)) = (h', ORet (RRead n q err)) /\ sgood h' /\ (pos0 <= spos h)%nat /\
    0 <= n <= zlen p /\ (spos h' = spos h + Z.to_nat n)%nat /\ (spos h' <= length (cut D d))%nat /\
    take (Z.to_nat n) q = take (Z.to_nat n) (drop (spos h) (cut D d)) /\
    (err = None /\ (n = 0 -> p = []) \/ err = Some e1 /\ spos h' = length (cut D d)).
Proof.
  intros Hsg Hp. pose proof (sg_open h Hsg) as (t & pos & ended & cm & m & Hsi & Hi & Hp0 & Ho & Hbe & Hgl & Hf & Hsp & Hna).
  pose proof (ow_wf _ _ _ _ (si_own _ _ _ _ _ Hsi)) as Hwf.
  destruct (exec E fuel h (Call i (Read p))) as [h' o] eqn:Hex.
  assert (Hfe : exists evs w', h_log h' = h_log h ++ evs /\ h_w h' = w' /\ length (h_b h') = length (h_b h) /\
     live w' /\ kept d e (gp w') (calls_on r (h_log h')) /\ total_read evs = Z.of_nat (gp w') - Z.of_nat (gp (h_w h)) /\ o <> OSpin).
  { unfold exec in Hex. cbn [cmd_prog] in Hex. rewrite (bf_b _ _ _ _ _ _ _ Ho) in Hex. cbn [method] in Hex. rewrite run_rread in Hex.
    pose proof (read_stream_returns h p _ cm m Hwf Ho (sg_live _ Hsg) Hgl Hp Hbe) as Hns.
    pose proof (run_bf_Read E fuel h i _ c cm r m p Hwf Ho (sg_size _ Hsg) Hp Hbe) as HR. cbn [bb_eof bb_offset] in HR.
    destruct ended.
    { rewrite HR in Hex. injection Hex as <- <-. exists [], (h_w h). rewrite app_nil_r. split_and!; try done; [apply Hsg|apply Hsg|unfold total_read; cbn; lia]. }
    destruct HR as (w' & evs & d' & cm1 & pe & Hfr & HR).
    destruct (si_cm _ _ _ _ _ Hsi) as (cm' & Hcm & Hwin & _).
    rewrite (bf_cm _ _ _ _ _ _ _ Ho) in Hcm. injection Hcm as <-. destruct (Hwin Hna) as [Hwd Hnc].
    assert (Hup : Z.of_nat pos + zlen p - buf_end cm <= 2 ^ 62).
    { pose proof (bf_off_bounds _ _ _ _ _ _ _ Ho) as Hob. cbn [bb_offset] in Hob. lia. }
    pose proof (bf_live _ _ _ _ _ _ _ Ho) as Hlb. pose proof Hlb as [L1 L2 L3 L4 L5 L6 L7 L8 L9].
    pose proof (fetch_rel_facts E r (h_w h) cm _ w' evs d' cm1 pe Hfr L4 Hup L8 L9) as (_ & _ & _ & _ & _ & Htot & _).
    destruct (window_fetch E D _ cm r _ c m _ _ _ _ _ _ _ Hwd Hlb Hnc (si_log _ _ _ _ _ Hsi) (si_le _ _ _ _ _ Hsi) Hup Hfr) as (_ & Hcal & _).
    assert (Hpk : live w' /\ kept d e (gp w') (calls_on r (h_log h) ++ evs) /\ pe <> PBad /\ (gp w' = gp (h_w h) + length d')%nat).
    { destruct Hfr as [(_ & -> & -> & -> & _ & ->)|(_ & _ & Hpl & _)].
      - rewrite app_nil_r. split_and!; try done; first [apply Hsg|cbn; lia].
      - eapply (pulls_kept E r live gp d e Hst); [exact Hpl|apply Hsg|apply Hsg]. }
    destruct Hpk as (K1 & K2 & K3 & K4).
    assert (Hcon : forall hh oo, h_log hh = h_log h ++ evs -> h_w hh = w' -> length (h_b hh) = length (h_b h) -> (hh, oo) = (h', o) -> oo <> OSpin ->
      exists evs w', h_log h' = h_log h ++ evs /\ h_w h' = w' /\ length (h_b h') = length (h_b h) /\
       live w' /\ kept d e (gp w') (calls_on r (h_log h')) /\ total_read evs = Z.of_nat (gp w') - Z.of_nat (gp (h_w h)) /\ o <> OSpin).
    { intros hh oo H1 H2 H3 [= <- <-] H4. exists evs, w'. rewrite H1, calls_on_app, Hcal. split_and!; try done. unfold zlen in Htot. lia. }
    destruct pe as [|er| |]; [..|done|].
    3: { rewrite HR in Hns. done. }
    all: cbv zeta in HR; destruct HR as (cm2 & _ & _ & HR); rewrite HR in Hex; (eapply Hcon; [| | |exact Hex|done]); [done|done|cbn; apply insert_length]. }
  destruct Hfe as (evs & w' & Hlog & Hw' & Hlen & Hl' & Hk' & Htot & Hno).
  assert (Hfe' : feasible h').
  { split; [unfold zlen; rewrite Hlen; apply Hsg|]. rewrite Hlog, total_read_app. pose proof (sg_room _ Hsg). destruct Hk' as (_ & ? & _). unfold zlen in *. lia. }
  assert (Hgo : go_cmd (Call i (Read p))) by exact Hp.
  assert (Hnw : ~ wraps r (Call i (Read p))) by (intros [|[? ?]]; congruence).
  destruct (stream_step E fuel r c D t h (Call i (Read p)) h' o Hge Hsi Hgo Hnw Hfe' Hex) as [Hsi' Hcall].
  destruct (Hcall _ _ _ _ eq_refl Hi) as (evs' & HL & _ & Hans). cbv zeta in HL, Hans.
  destruct o as [x|ex|]; [|exfalso|done].
  2: { destruct Hans as [(ev & Hin & Hlie) _]. destruct Hk' as (_ & _ & Hnl & _). rewrite Forall_forall in Hnl. apply (Hnl ev); [|done]. rewrite HL. apply elem_of_app. by right. }
  cbn [stream_answer] in Hans. destruct Hans as (err & -> & Herr).
  set (L' := calls_on r (h_log h')) in *. set (k := Nat.min (length p) (length (stream L') - pos)) in *.
  assert (Hfo : follow t (Call i (Read p)) (ORet (RRead (Z.of_nat k) (filled (stream L') pos k p) err)) = <[i := At (pos + k) (is_some_err err)]> t).
  { cbn [follow]. rewrite Hi. by rewrite Nat2Z.id. }
  rewrite Hfo in Hsi'. pose proof (si_at _ _ _ _ _ Hsi' i (pos + k)%nat (is_some_err err) (lookup_insert _ _ _)) as Hb'.
  destruct (kept_prefix d e D _ _ Hk' (si_le _ _ _ _ _ Hsi')) as [x Hx].
  assert (Hsp' : spos h' = (pos + k)%nat) by (unfold spos; rewrite Hb'; cbn; lia).
  assert (Hple : (pos <= length (stream L'))%nat).
  { destruct (si_cm _ _ _ _ _ Hsi) as (cm' & Hcm & Hwin & _). rewrite (bf_cm _ _ _ _ _ _ _ Ho) in Hcm. injection Hcm as <-.
    destruct (Hwin Hna) as [(_ & W2 & _) _]. pose proof (bf_off_bounds _ _ _ _ _ _ _ Ho) as Hob. cbn [bb_offset] in Hob.
    rewrite HL, stream_app, app_length. unfold zlen in *. lia. }
  assert (Hk : (k <= length p /\ pos + k <= length (stream L'))%nat) by lia.
  exists h', (Z.of_nat k), (filled (stream L') pos k p), err. rewrite Hsp, Hsp', Nat2Z.id. split; [done|]. split; [|split; [lia|]].
  - constructor.
    + exists (<[i := At (pos + k) (is_some_err err)]> t), (pos + k)%nat, (is_some_err err). split; [done|]. split; [apply lookup_insert|]. split; [lia|].
      intros Hso j Hj. destruct (sg_inv _ Hsg) as (t0 & pos' & en' & Hsi0 & _ & _ & Hsole).
      apply open_lookup in Hj as (pj & ej & Hj). destruct (decide (j = i)) as [->|Hne]; [done|]. rewrite lookup_insert_ne in Hj by done.
      apply (Hsole Hso j). apply (ow_open _ _ _ _ (si_own _ _ _ _ _ Hsi0)). apply (ow_open _ _ _ _ (si_own _ _ _ _ _ Hsi)). apply open_lookup. eauto.
    + by rewrite Hw'.
    + by rewrite Hw'.
    + unfold zlen. rewrite Hlen. apply Hsg.
    + rewrite Hw', Hlog, total_read_app. pose proof (sg_room _ Hsg). lia.
  - split; [unfold zlen; lia|]. split; [done|]. rewrite Hx, app_length. split; [lia|]. split.
    + unfold filled. rewrite drop_app_le by lia. rewrite (take_app_le (drop pos (stream L'))) by (rewrite drop_length; lia).
      rewrite take_app_le by (rewrite take_length, drop_length; lia). by rewrite take_take, Nat.min_id.
    + destruct (ended || (length (stream L') <? pos + length p)%nat) eqn:Hcase.
      * right. destruct Herr as [[er ->] Ht]. symmetry in Ht.
        destruct (terminal_cut d e D _ _ _ Hk' (si_le _ _ _ _ _ Hsi') Ht) as [Hc He]. rewrite (Hend _ He). split; [done|].
        rewrite Hc in Hx. assert (x = []) as -> by (apply (f_equal length) in Hx; rewrite app_length in Hx; destruct x; [done|cbn in Hx; lia]). rewrite nil_length, Nat.add_0_r.
        destruct ended; [|rewrite orb_false_l in Hcase; apply Nat.ltb_lt in Hcase; lia].
        destruct (bf_eof _ _ _ _ _ _ _ Ho eq_refl) as [Heo _]. cbn [bb_offset] in Heo.
        destruct (si_cm _ _ _ _ _ Hsi) as (cm' & Hcm & Hwin & _). rewrite (bf_cm _ _ _ _ _ _ _ Ho) in Hcm. injection Hcm as <-.
        destruct (Hwin Hna) as [(_ & W2 & _) _].
        assert (HLL : L' = calls_on r (h_log h)).
        { destruct (Hcall _ _ _ _ eq_refl Hi) as (ev2 & HL2 & Hcm2 & _). cbn in Hcm2. subst ev2. by rewrite app_nil_r in HL2. }
        rewrite <- HLL in W2. unfold zlen in W2. lia.
      * left. split; [done|]. intros Hk0. unfold k in Hk0. clear -Hk0 Hcase. apply orb_false_iff in Hcase as [_ Hcase]. apply Nat.ltb_ge in Hcase.
        destruct p; [done|]. cbn [length] in *. lia.
Qed.

Definition closed_log (log : list event) : Prop :=
  if is_closer (ev_caps E r) then exists pre err, calls_on r log = pre ++ [EvClose r err] /\ Forall not_close pre
  else Forall not_close (calls_on r log).
Definition safter h : Prop := h_b h !! i = Some closed_buffered /\ (sole -> closed_log (h_log h)).

Lemma sg_not_closed h : sgood h -> Forall not_close (calls_on r (h_log h)).
Proof.
  intros Hsg. pose proof (sg_open h Hsg) as (t & pos & ended & cm & m & Hsi & _ & _ & _ & _ & _ & _ & _ & Hna).
  destruct (si_cm _ _ _ _ _ Hsi) as (cm' & _ & Hwin & _). by destruct (Hwin Hna).
Qed.

Lemma s_close h : sgood h -> exists h' err, exec E fuel h (Call i Close) = (h', ORet (RErr err)) /\ safter h'.
Proof.
  intros Hsg. pose proof (sg_open h Hsg) as (t0 & pos & ended & cm & m & Hsi & Hi & Hp0 & Ho & Hbe & Hgl & Hf & Hsp & Hna).
  pose proof (ow_wf _ _ _ _ (si_own _ _ _ _ _ Hsi)) as Hwf.
  destruct (exec E fuel h (Call i Close)) as [h' o] eqn:Hex.
  assert (Hlt : (i < length (h_b h))%nat) by (eapply lookup_lt_Some, Ho).
  assert (Hx : exists err evs, o = ORet (RErr err) /\ h_b h' = <[i := closed_buffered]> (h_b h) /\ h_log h' = h_log h ++ evs /\ total_read evs = 0).
  { pose proof Hex as Hex'. unfold exec in Hex'. cbn [cmd_prog] in Hex'. rewrite (bf_b _ _ _ _ _ _ _ Ho) in Hex'. cbn [method] in Hex'. rewrite run_rerr in Hex'.
    pose proof (run_bf_Close E h i _ c cm r m Hwf Ho (proj1 Hf)) as HC. cbv zeta in HC.
    destruct (zlen m >? 1); [destruct HC as (cm2 & _ & HC)|]; rewrite HC in Hex'.
    - injection Hex' as <- <-. eexists _, []. cbn. by rewrite app_nil_r.
    - destruct (is_closer _); [destruct (ev_close _ _ _) as [w2 e2]|]; injection Hex' as <- <-; [eexists _, [_]|eexists _, []]; cbn; rewrite ?app_nil_r; done. }
  destruct Hx as (err & evs & -> & Hb' & Hlog & Htot).
  assert (Hf' : feasible h').
  { destruct Hf as [Hf1 Hf2]. split; [unfold zlen in *; by rewrite Hb', insert_length|]. rewrite Hlog, total_read_app. lia. }
  exists h', err. split; [done|]. split; [rewrite Hb'; by apply list_lookup_insert|].
  intros Hso. destruct (sg_inv _ Hsg) as (t & pos' & en' & Hsi' & Hi' & _ & Hsole).
  assert (Hna' : ~ all_closed (open_table t)) by (intros Ha; apply (Ha i), open_lookup; eauto).
  destruct (own_history E fuel r c [Call i Close] (open_table t) h h' [ORet (RErr err)] Hge (si_own _ _ _ _ _ Hsi')) as [_ [_ Hcl]]; try done.
  - split; [|done]. intros _. by apply sg_not_closed.
  - by repeat constructor.
  - repeat constructor. intros [|[? ?]]; congruence.
  - cbn [history]. by rewrite Hex.
  - apply Hcl. cbn [tracks track]. assert (open_table t !! i = Some true) as -> by (apply open_lookup; eauto).
    intros j Hj. destruct (decide (j = i)) as [->|Hne]; [by rewrite lookup_insert in Hj|]. rewrite lookup_insert_ne in Hj by done. by apply Hne, (Hsole Hso).
Qed.

Lemma sg_world h w : sgood h -> quiet live gp (h_w h) w -> sgood (at_w h w).
Proof.
  intros [(t & pos & en & Hsi & Hi & Hp & Hsole) Hk Hl Hsz Hrm] [Hq1 Hq2]. constructor; cbn [at_w h_w h_log h_b]; rewrite ?Hq2; try done.
  exists t, pos, en. split; [|done]. destruct Hsi as [[[] ] ]. constructor; done.
Qed.
Lemma sa_world h w : safter h -> safter (at_w h w).
Proof. done. Qed.
Lemma spos_world h w : spos (at_w h w) = spos h.
Proof. done. Qed.

(** ** The lower Body as a Reader *)
Notation N := (nest E fuel i b g).
Definition gpos (x : nworld W) : nat := spos (n_low x) - pos0.

Lemma clip_len p : zlen (clip p) <= 2 ^ 61 /\ zlen (clip p) <= zlen p.
Proof.
  unfold clip. destruct (zlen p <=? 2 ^ 61) eqn:Hp; [lia|]. rewrite zlen_take. split; [|lia]. 
  assert (0 <= 2 ^ 61) by lia. lia.
Qed.
Lemma clip_nil p : clip p = [] -> p = [].
Proof.
  unfold clip. destruct (zlen p <=? 2 ^ 61) eqn:Hp; [done|]. intros H. apply (f_equal zlen) in H. rewrite zlen_take, zlen_nil in H.
  assert (0 < 2 ^ 61) by lia. lia.
Qed.

Lemma nest_streams : streams_while N 0%nat (nlive sgood) gpos dd e1.
Proof.
  assert (Hdd : length dd = (length (cut D d) - pos0)%nat) by apply drop_length.
  assert (Hq : forall x w, nlive sgood x -> quiet live gp (h_w (n_low x)) w -> quiet (nlive sgood) gpos x (out_world x w)).
  { intros [h bad] w [Hb Hgd] Hw. split; [|done]. split; [done|]. by apply sg_world. }
  constructor.
  - intros [h bad] p w' n q err [Hb Hgd]; cbn [n_bad n_low] in Hb, Hgd. nb. destruct (clip_len p) as [Hc1 Hc2].
    destruct (s_read h (clip p) Hgd Hc1) as (h' & n' & q' & err' & -> & Hg' & Hps & Hn & Hsp & Hle & Hq' & He). intros [= <- <- <- <-].
    cbn [n_low]. unfold gpos. cbn [n_low]. split; [done|]. split; [lia|]. split; [lia|]. split; [lia|]. split.
    + unfold dd. rewrite drop_drop. by replace (pos0 + (spos h - pos0))%nat with (spos h) by lia.
    + destruct He as [[-> He]|[-> He]]; [left; split; [done|]; intros Hn0; by apply clip_nil, He|right; split; [done|lia]].
  - intros x [|r'] p Hne Hl; [done|]. nb. pose proof (sw_read_other _ _ _ _ _ _ Hst (h_w (n_low x)) (g (S r')) p (Hg _) (sg_live _ (proj2 Hl))) as H.
    destruct (ev_read E (h_w (n_low x)) (g (S r')) p). by apply Hq.
  - intros x [|r'] p off Hne Hl; [done|]. nb. pose proof (sw_readat _ _ _ _ _ _ Hst (h_w (n_low x)) (g (S r')) p off (Hg _) (sg_live _ (proj2 Hl))) as H.
    destruct (ev_readat E (h_w (n_low x)) (g (S r')) p off). by apply Hq.
  - intros x [|r'] off wh Hne Hl; [done|]. nb. pose proof (sw_seek _ _ _ _ _ _ Hst (h_w (n_low x)) (g (S r')) off wh (Hg _) (sg_live _ (proj2 Hl))) as H.
    destruct (ev_seek E (h_w (n_low x)) (g (S r')) off wh). by apply Hq.
  - intros x [|r'] Hne Hl; [done|]. nb. pose proof (sw_close _ _ _ _ _ _ Hst (h_w (n_low x)) (g (S r')) (Hg _) (sg_live _ (proj2 Hl))) as H.
    destruct (ev_close E (h_w (n_low x)) (g (S r'))). by apply Hq.
  - intros x [|r'] Hl; nb; [done|]. pose proof (sw_stat _ _ _ _ _ _ Hst (h_w (n_low x)) (g (S r')) (sg_live _ (proj2 Hl))) as H.
    destruct (ev_stat E (h_w (n_low x)) (g (S r'))). by apply Hq.
  - intros x u p Hl; nb. pose proof (sw_write _ _ _ _ _ _ Hst (h_w (n_low x)) u p (sg_live _ (proj2 Hl))) as H.
    destruct (ev_write E (h_w (n_low x)) u p). by apply Hq.
Qed.

Definition sside (s : bool) : heap W -> Prop := if s then safter else sgood.
Definition slayered (h : heap (nworld W)) : Prop :=
  Forall modest (calls_on 0 (h_log h)) -> n_bad (h_w h) = false /\ sside (shut0 (h_log h)) (n_low (h_w h)).

Lemma ss_read s h p : sside s h -> exists h' n q err, exec E fuel h (Call i (Read (clip p))) = (h', ORet (RRead n q err)) /\ sside s h'.
Proof.
  destruct s; intros H.
  - rewrite (shut_exec E fuel h i _ (Read (clip p)) (proj1 H) eq_refl). by eexists _, _, _, _.
  - destruct (s_read h (clip p) H (proj1 (clip_len p))) as (h' & n & q & err & ? & ? & _). eauto 6.
Qed.
Lemma ss_close s h : sside s h -> exists h' err, exec E fuel h (Call i Close) = (h', ORet (RErr err)) /\ safter h'.
Proof.
  destruct s; intros H; [|by apply s_close]. rewrite (shut_exec E fuel h i _ Close (proj1 H) eq_refl). by eexists _, _.
Qed.
Lemma ss_world s h w : sside s h -> (live (h_w h) -> quiet live gp (h_w h) w) -> sside s (at_w h w).
Proof. destruct s; intros H Hq; [by apply sa_world|]. apply sg_world; [done|]. apply Hq, H. Qed.

Lemma act_slayered {A} (a : act A) (h h' : heap (nworld W)) x : act_step N h a = Some (h', x) -> slayered h -> slayered h'.
Proof.
  assert (Hsn : forall ev, Forall modest (calls_on 0 (h_log h ++ [ev])) -> Forall modest (calls_on 0 (h_log h)) /\ (ev_reader ev = Some 0%nat -> modest ev)).
  { intros ev. rewrite calls_on_app. intros [H1 H2]%Forall_app. split; [done|]. intros Hr. unfold calls_on in H2. rewrite filter_cons, decide_True in H2 by done. by apply Forall_cons in H2 as [? _]. }
  destruct a; cbn [act_step]; try (intros [= <- _]; done).
  - destruct (h_b h !! i0); [|done]. by intros [= <- _].
  - destruct (h_b h !! i0); [|done]. by intros [= <- _].
  - destruct (h_c h !! c0); [|done]. by intros [= <- _].
  - destruct (h_c h !! c0); [|done]. by intros [= <- _].
  - intros Ha Hl. unfold slayered. cbn [nest ev_read] in Ha. destruct r0 as [|r0].
    + unfold low in Ha. destruct (exec E fuel (n_low (h_w h)) (Call i (Read (clip p)))) as [h1 o] eqn:Hex.
      assert (Hh : exists ev nw, h' = emit h nw ev /\ ev_reader ev = Some 0%nat /\ shut0 [ev] = false /\ modest ev /\
        nw = match o with ORet (RRead _ _ _) => {| n_low := h1; n_bad := n_bad (h_w h) |} | _ => {| n_low := h1; n_bad := true |} end).
      { destruct o as [[]| |]; injection Ha as <- _; by eexists _, _. }
      destruct Hh as (ev & nw & -> & Hr & Hs0 & Hm & ->). cbn [emit h_log h_w]. intros [Hm0 _]%Hsn. destruct (Hl Hm0) as [Hb Hsd].
      destruct (ss_read _ _ p Hsd) as (h2 & n & q & err & Hx & Hsd'). rewrite Hex in Hx. injection Hx as -> ->. cbn [n_bad n_low].
      by rewrite shut0_app, Hs0, orb_false_r.
    + destruct (ev_read E (h_w (n_low (h_w h))) (g (S r0)) p) as [w [[n q] err]] eqn:Hr. injection Ha as <- _. cbn [emit h_log h_w]. intros [Hm0 _]%Hsn. destruct (Hl Hm0) as [Hb Hsd].
      cbn [n_low n_bad out_world]. split; [done|]. rewrite shut0_app, orb_false_r. apply (ss_world _ _ w Hsd). intros Hlv.
      pose proof (sw_read_other _ _ _ _ _ _ Hst _ (g (S r0)) p (Hg _) Hlv) as Hq. by rewrite Hr in Hq.
  - intros Ha Hl. unfold slayered. cbn [nest ev_readat] in Ha. destruct r0 as [|r0].
    + destruct (low _ _ _ _ _ _ _) as [nw [[n q] err]]. injection Ha as <- _. cbn [emit h_log h_w]. intros [_ Hm]%Hsn. by destruct (Hm eq_refl).
    + destruct (ev_readat E (h_w (n_low (h_w h))) (g (S r0)) p off) as [w [[n q] err]] eqn:Hr. injection Ha as <- _. cbn [emit h_log h_w]. intros [Hm0 _]%Hsn. destruct (Hl Hm0) as [Hb Hsd].
      cbn [n_low n_bad out_world]. split; [done|]. rewrite shut0_app, orb_false_r. apply (ss_world _ _ w Hsd). intros Hlv.
      pose proof (sw_readat _ _ _ _ _ _ Hst _ (g (S r0)) p off (Hg _) Hlv) as Hq. by rewrite Hr in Hq.
  - intros Ha Hl. unfold slayered. cbn [nest ev_seek] in Ha. destruct r0 as [|r0].
    + destruct (low _ _ _ _ _ _ _) as [nw [n err]]. injection Ha as <- _. cbn [emit h_log h_w]. intros [_ Hm]%Hsn. by destruct (Hm eq_refl).
    + destruct (ev_seek E (h_w (n_low (h_w h))) (g (S r0)) off whence) as [w [n err]] eqn:Hr. injection Ha as <- _. cbn [emit h_log h_w]. intros [Hm0 _]%Hsn. destruct (Hl Hm0) as [Hb Hsd].
      cbn [n_low n_bad out_world]. split; [done|]. rewrite shut0_app, orb_false_r. apply (ss_world _ _ w Hsd). intros Hlv.
      pose proof (sw_seek _ _ _ _ _ _ Hst _ (g (S r0)) off whence (Hg _) Hlv) as Hq. by rewrite Hr in Hq.
  - intros Ha Hl. unfold slayered. cbn [nest ev_close] in Ha. destruct r0 as [|r0].
    + unfold low in Ha. destruct (exec E fuel (n_low (h_w h)) (Call i Close)) as [h1 o] eqn:Hex.
      assert (Hh : exists err nw, h' = emit h nw (EvClose 0 err) /\
        nw = match o with ORet (RErr _) => {| n_low := h1; n_bad := n_bad (h_w h) |} | _ => {| n_low := h1; n_bad := true |} end).
      { destruct o as [[]| |]; injection Ha as <- _; by eexists _, _. }
      destruct Hh as (err & nw & -> & ->). cbn [emit h_log h_w]. intros [Hm0 _]%Hsn. destruct (Hl Hm0) as [Hb Hsd].
      destruct (ss_close _ _ Hsd) as (h2 & err2 & Hx & Hsd'). rewrite Hex in Hx. injection Hx as -> ->. cbn [n_bad n_low].
      rewrite shut0_app. cbn [shut0 existsb orb]. by rewrite orb_true_r.
    + destruct (ev_close E (h_w (n_low (h_w h))) (g (S r0))) as [w err] eqn:Hr. injection Ha as <- _. cbn [emit h_log h_w]. intros [Hm0 _]%Hsn. destruct (Hl Hm0) as [Hb Hsd].
      cbn [n_low n_bad out_world]. split; [done|]. rewrite shut0_app, orb_false_r. apply (ss_world _ _ w Hsd). intros Hlv.
      pose proof (sw_close _ _ _ _ _ _ Hst _ (g (S r0)) (Hg _) Hlv) as Hq. by rewrite Hr in Hq.
  - intros Ha Hl. unfold slayered. cbn [nest ev_stat] in Ha. destruct r0 as [|r0].
    + injection Ha as <- _. cbn [emit h_log h_w]. intros [Hm0 _]%Hsn. destruct (Hl Hm0) as [Hb Hsd]. split; [done|]. by rewrite shut0_app, orb_false_r.
    + destruct (ev_stat E (h_w (n_low (h_w h))) (g (S r0))) as [w [n err]] eqn:Hr. injection Ha as <- _. cbn [emit h_log h_w]. intros [Hm0 _]%Hsn. destruct (Hl Hm0) as [Hb Hsd].
      cbn [n_low n_bad out_world]. split; [done|]. rewrite shut0_app, orb_false_r. apply (ss_world _ _ w Hsd). intros Hlv.
      pose proof (sw_stat _ _ _ _ _ _ Hst _ (g (S r0)) Hlv) as Hq. by rewrite Hr in Hq.
  - intros Ha Hl. unfold slayered. cbn [nest ev_write] in Ha.
    destruct (ev_write E (h_w (n_low (h_w h))) w p) as [w1 y] eqn:Hr. injection Ha as <- _. cbn [emit h_log h_w]. intros [Hm0 _]%Hsn. destruct (Hl Hm0) as [Hb Hsd].
    cbn [n_low n_bad out_world]. split; [done|]. rewrite shut0_app, orb_false_r. apply (ss_world _ _ w1 Hsd). intros Hlv.
    pose proof (sw_write _ _ _ _ _ _ Hst _ w p Hlv) as Hq. by rewrite Hr in Hq.
Qed.
Lemma run_slayered {A} (m : prog A) : forall (h h' : heap (nworld W)) o, run N h m = (h', o) -> slayered h -> slayered h'.
Proof.
  induction m as [a|ex| |X a k IH]; intros h h' o; cbn [run]; try (intros [= <- _]; done).
  destruct (act_step N h a) as [[h1 x]|] eqn:Ha; [|by intros [= <- _]].
  intros Hr Hl. eapply IH; [exact Hr|]. by eapply act_slayered.
Qed.
Lemma history_slayered upfuel cs : forall (h h' : heap (nworld W)) os, history N upfuel h cs = (h', os) -> slayered h -> slayered h'.
Proof.
  induction cs as [|c' cs IH]; intros h h' os H Hl; cbn [history] in H; [by injection H as <- _|].
  destruct (exec N upfuel h c') as [h1 o] eqn:Hex. pose proof (run_slayered _ _ _ _ Hex Hl) as Hl1.
  destruct o; [destruct (history N upfuel h1 cs) as [h2 os'] eqn:Hh; injection H as <- _; by eapply IH..|]. by injection H as <- _.
Qed.
Lemma wrapped_slayered upfuel h (h1 : heap (nworld W)) j cs (h2 : heap (nworld W)) os :
  sgood h -> wrapped_once N upfuel 0%nat (upper h) h1 j cs h2 os -> slayered h2.
Proof.
  intros Hgd (_ & cs0 & os0 & h0 & new & _ & _ & _ & H0 & H1 & H2 & _).
  eapply history_slayered; [exact H2|]. eapply run_slayered; [exact H1|]. eapply history_slayered; [exact H0|]. by intros _.
Qed.
End Lower.

(** ** The theorems *)
Section Main.
Context {W : Type} (E : env W) (fuel : nat) (h : heap W) (i : nat) (b : bobj) (g : rid -> rid).
Notation N := (nest E fuel i b g).

Lemma stream_good r d e D pos cs os :
  stream_below E fuel h i b r d e D pos cs os ->
  exists live gp c, streams_while E r live gp d e /\ go_env E /\ (length d < fuel)%nat /\
    sgood i r live gp d e D c pos (forall j, tracks {[ i := true ]} cs os !! j = Some true -> j = i) h /\ spos i h = pos /\
    exists bb, b = BBuffered bb.
Proof.
  intros (live & gp & w & h1 & ended & Hst & Hl & H0 & Hw & HD & Hi & Hb & Hfu & Hrm).
  destruct (stream_program E fuel r w h1 i cs h os D Hw HD) as (c & Hsi).
  pose proof Hw as (Hge & cs0 & os0 & h0 & new & Hgo & Hnw & Hwr & Hh0 & Hh1 & Hh2 & Hf).
  pose proof (wrapped_fs E fuel r live gp d e Hst w h1 i cs h os Hl H0 Hw) as Hfs.
  destruct (Hfs (polite_orderly _ _ _ (si_log _ _ _ _ _ Hsi))) as (gg & Hk & Hgl).
  assert (Hna : ~ all_closed (open_table (follows {[ i := At 0 false ]} cs os))) by (intros Ha; apply (Ha i), open_lookup; eauto).
  destruct (si_cm _ _ _ _ _ Hsi) as (cm & Hcm & Hwin & _). destruct (Hwin Hna) as [_ Hnc]. destruct (Hgl Hnc) as [-> Hlv].
  pose proof (si_at _ _ _ _ _ Hsi _ _ _ Hi) as Hbi. 
  exists live, gp, c. split_and!; try done.
  - constructor; try done; [|apply Hf|lia]. exists (follows {[ i := At 0 false ]} cs os), pos, ended. split; [done|]. split; [done|]. split; [done|].
    intros Hso j Hj. apply Hso.
    destruct (own_program E fuel r w cs0 os0 h0 new h1 i cs h os Hge Hgo Hnw Hwr Hh0 Hh1 Hh2 Hf) as (c2 & Hown & _).
    assert (c2 = c) as ->.
    { destruct (decide (c2 = c)); [done|]. exfalso. apply (ow_uniq _ _ _ _ (si_own _ _ _ _ _ Hsi) c2); [done|]. apply (ow_rd _ _ _ _ Hown).
      intros Ha. pose proof (ow_none _ _ _ _ Hown Ha) as Hn2. 
      pose proof (ow_rd _ _ _ _ (si_own _ _ _ _ _ Hsi) Hna) as Hrd. by apply (ow_uniq _ _ _ _ Hown c). }
    apply (ow_open _ _ _ _ Hown), (ow_open _ _ _ _ (si_own _ _ _ _ _ Hsi)), Hj.
  - unfold spos. rewrite Hbi. cbn. lia.
  - rewrite Hb in Hbi. injection Hbi as ->. by eexists.
Qed.

Lemma body_is_stream d e : streaming_below E fuel h i b g d e -> stream_source E fuel h i b g d e.
Proof.
  intros (r & d0 & e0 & D & pos & cs & os & Hb & Hg & -> & He).
  destruct (stream_good r d0 e0 D pos cs os Hb) as (live & gp & c & Hst & Hge & Hfu & Hgd & Hsp & bb & ->). split; [done|].
  eexists (nlive _), (gpos i pos). split; [by eapply nest_streams|]. split; [split; [done|exact Hgd]|].
  split; [unfold gpos; cbn [upper n_low]; lia|]. by intros x [? _].
Qed.

Lemma nested_stream d e : streaming_below E fuel h i b g d e ->
  forall upfuel h1 j cs h2 os D,
  wrapped_once N upfuel 0%nat (upper h) h1 j cs h2 os -> streaming N upfuel 0%nat h1 j D ->
  (exists e', end_error D d e e' /\ stream_trace False (final_answer D (cut D d) (Some e') 0%nat) {[ j := At 0 false ]} cs os) /\
  n_bad (h_w h2) = false.
Proof.
  intros Hb upfuel h1 j cs h2 os D Hw HD. split.
  - destruct (body_is_stream d e Hb) as (_ & live & gp & Hs & Hl & H0 & _). by eapply faithful_while.
  - destruct Hb as (r & d0 & e0 & D0 & pos & cs0 & os0 & Hb & Hg & -> & He).
    destruct (stream_good r d0 e0 D0 pos cs0 os0 Hb) as (live & gp & c & Hst & Hge & Hfu & Hgd & _).
    destruct (polite_reader N upfuel 0%nat (upper h) h1 j cs h2 os D Hw HD) as [Hpol _].
    apply (wrapped_slayered E fuel i b g r live gp d0 e0 D0 c pos e _ Hst Hge Hfu He Hg upfuel h h1 j cs h2 os Hgd Hw).
    apply polite_orderly in Hpol. apply Forall_forall. intros ev Hin. apply elem_of_list_split in Hin as (X1 & X2 & Hin). by destruct (Hpol X1 ev X2 Hin).
Qed.

Lemma next_stream d e : streaming_below E fuel h i b g d e ->
  forall upfuel h1 j cs h2 os D pos ended b2 g2 e2,
  wrapped_once N upfuel 0%nat (upper h) h1 j cs h2 os -> streaming N upfuel 0%nat h1 j D ->
  follows {[ j := At 0 false ]} cs os !! j = Some (At pos ended) -> h_b h2 !! j = Some b2 ->
  (length d < upfuel)%nat -> total_read (h_log h2) + zlen d <= 2 ^ 62 ->
  (forall n, g2 n <> 0%nat) -> (forall x, end_error D d e x -> x = e2) ->
  streaming_below N upfuel h2 j b2 g2 (drop pos (cut D d)) e2.
Proof.
  intros Hb upfuel h1 j cs h2 os D pos ended b2 g2 e2 Hw HD Hj Hb2 Hfu Hrm Hg2 He2.
  destruct (body_is_stream d e Hb) as (_ & live & gp & Hs & Hl & H0 & _).
  exists 0%nat, d, e, D, pos, cs, os. split; [|done]. by exists live, gp, (upper h), h1, ended.
Qed.

Lemma nested_stream_close r d0 e0 D0 pos cs0 os0 e :
  stream_below E fuel h i b r d0 e0 D0 pos cs0 os0 -> (forall n, g n <> r) -> (forall x, end_error D0 d0 e0 x -> x = e) ->
  (forall j, tracks {[ i := true ]} cs0 os0 !! j = Some true -> j = i) ->
  forall upfuel h1 j cs h2 os D, wrapped_once N upfuel 0%nat (upper h) h1 j cs h2 os -> streaming N upfuel 0%nat h1 j D ->
  let low := n_low (h_w h2) in
  (~ all_closed (tracks {[ j := true ]} cs os) -> Forall not_close (calls_on r (h_log low))) /\
  (all_closed (tracks {[ j := true ]} cs os) ->
     if is_closer (ev_caps E r)
     then exists pre err, calls_on r (h_log low) = pre ++ [EvClose r err] /\ Forall not_close pre
     else Forall not_close (calls_on r (h_log low))).
Proof.
  intros Hb Hg He Hsole upfuel h1 j cs h2 os D Hw HD.
  destruct (stream_good r d0 e0 D0 pos cs0 os0 Hb) as (live & gp & c & Hst & Hge & Hfu & Hgd & _ & bb & ->).
  destruct (polite_reader _ upfuel 0%nat (upper h) h1 j cs h2 os D Hw HD) as [Hpol _].
  destruct (wrapped_slayered E fuel i (BBuffered bb) g r live gp d0 e0 D0 c pos e _ Hst Hge Hfu He Hg upfuel h h1 j cs h2 os Hgd Hw) as [_ Hside].
  { apply polite_orderly in Hpol. apply Forall_forall. intros ev Hin. apply elem_of_list_split in Hin as (X1 & X2 & Hin). by destruct (Hpol X1 ev X2 Hin). }
  pose proof Hw as (HgeN & c0 & o0 & h0 & new & Hgo & Hnw & Hwr & H0 & H1 & H2 & Hf).
  pose proof (ProofsOwn.closed_exactly_once _ upfuel 0%nat (upper h) c0 o0 h0 new h1 j cs h2 os HgeN Hgo Hnw Hwr H0 H1 H2 Hf) as [Hopen Hcl].
  cbn [nest ev_caps body_caps is_closer cp_file cp_closer orb] in Hcl. cbv zeta. split.
  - intros Hna. rewrite (shut0_calm _ (Hopen Hna)) in Hside. cbn [sside] in Hside. by eapply sg_not_closed.
  - intros Ha. destruct (Hcl Ha) as (pre & err & Hpe & _). rewrite (shut0_closed _ _ _ Hpe) in Hside. by apply Hside.
Qed.
End Main.
