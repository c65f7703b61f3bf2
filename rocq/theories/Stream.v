(** * Streaming Bodies: the buffer is a window on the stream (proofs) *)
From stdpp Require Import gmap.
From Coq Require Import ZifyBool.
From Verif Require Export Family StreamSpec.

Lemma stream_app l k : stream (l ++ k) = stream l ++ stream k.
Proof. unfold stream. by rewrite map_app, concat_app. Qed.
Lemma first_error_app l k :
  first_error (l ++ k) = match first_error l with Some e => Some e | None => first_error k end.
Proof. induction l as [|ev l IH]; [done|]. cbn. rewrite IH. by destruct (ev_error ev). Qed.
Lemma polite_app r D l k :
  polite r D l -> (forall before ev after, k = before ++ ev :: after -> polite_call r D (l ++ before) ev) -> polite r D (l ++ k).
Proof.
  intros Hl Hk before ev after Heq.
  destruct (decide (length before < length l)%nat) as [Hlt|Hge].
  - apply (Hl before ev (take (length l - S (length before)) after)).
    apply (f_equal (take (length l))) in Heq. rewrite take_app in Heq.
    transitivity (take (length l) (before ++ ev :: after)); [done|].
    rewrite take_app_ge by lia. f_equal. destruct (length l - length before)%nat eqn:Hs; [lia|].
    cbn. repeat f_equal. lia.
  - assert (Hb : before = l ++ drop (length l) before).
    { apply (f_equal (take (length l))) in Heq. rewrite take_app, take_app_le in Heq by lia.
      rewrite Heq at 1. by rewrite take_drop. }
    rewrite Hb. apply (Hk (drop (length l) before) ev after).
    rewrite Hb in Heq. rewrite <- app_assoc in Heq. by apply app_inv_head in Heq.
Qed.
Lemma polite_snoc r D l ev : polite r D l -> polite_call r D l ev -> polite r D (l ++ [ev]).
Proof.
  intros Hl Hev. apply polite_app; [done|]. intros before ev' after Heq.
  destruct before as [|x before]; [|by destruct before]. injection Heq as <- <-. by rewrite app_nil_r.
Qed.
Lemma cons_split {A} (x : A) l before y after :
  x :: l = before ++ y :: after -> before = [] /\ y = x /\ after = l \/ exists b', before = x :: b' /\ l = b' ++ y :: after.
Proof. destruct before as [|z b']; cbn; intros [= -> ->]; [by left|right; eauto]. Qed.

Section Stream.
Context {W : Type} (E : env W) (fuel : nat).
Implicit Types h : heap W.

(** ** One fetch *)
Lemma pulls_stream r w want w' evs d pe :
  pulls E r w want w' evs d pe ->
  calls_on r evs = evs /\ stream evs = d /\ first_error evs = (match pe with PErr e => Some e | _ => None end).
Proof.
  induction 1 as [w want Hw|w want Hw|w want buf w' n q e Hw Hb Hr Hn|w want buf w' n q e Hw Hb Hr Hn
    |w want buf w1 n q w' evs d pe Hw Hb Hr Hn Hp (IH1 & IH2 & IH3)]; try done.
  - unfold calls_on. rewrite filter_cons, decide_True by done. split; [done|]. unfold stream. cbn.
    replace ((0 <=? n) && (n <=? want)) with false by lia. done.
  - unfold calls_on. rewrite filter_cons, decide_True by done. split; [done|]. unfold stream. cbn.
    replace ((0 <=? n) && (n <=? want)) with true by lia. by rewrite app_nil_r.
  - unfold calls_on in *. rewrite filter_cons, decide_True by done. rewrite IH1. split; [done|]. unfold stream in *. cbn.
    replace ((0 <=? n) && (n <=? want)) with true by lia. by rewrite IH2.
Qed.

Lemma pulls_calls r w want w' evs d pe :
  pulls E r w want w' evs d pe -> forall L before ev after,
  first_error L = None -> Forall not_close L -> evs = before ++ ev :: after ->
  exists len n got err, ev = EvRead r len n got err /\ 0 < len /\
    first_error (L ++ before) = None /\ Forall not_close (L ++ before) /\
    zlen (stream (L ++ before)) + len = zlen (stream L) + want.
Proof.
  induction 1 as [w want Hw|w want Hw|w want buf w' n q e Hw Hb Hr Hn|w want buf w' n q e Hw Hb Hr Hn
    |w want buf w1 n q w' evs d pe Hw Hb Hr Hn Hp IH]; intros L before ev after Hfe Hnc Heq.
  1,2: by destruct before.
  1,2: apply cons_split in Heq as [(-> & -> & ->)|(b' & -> & Hb')]; [|by destruct b'];
    eexists _, _, _, _; rewrite app_nil_r; repeat split; done.
  apply cons_split in Heq as [(-> & -> & ->)|(b' & -> & Hb')].
  { eexists _, _, _, _; rewrite app_nil_r; repeat split; done. }
  set (x := EvRead r want n (take (Z.to_nat n) (fit buf q)) None) in *.
  replace (L ++ x :: b') with ((L ++ [x]) ++ b') by by rewrite <- app_assoc.
  destruct (IH (L ++ [x]) b' ev after) as (len & n' & got & err & -> & H1 & H2 & H3 & H4).
  - rewrite first_error_app, Hfe. cbn. by destruct (_ && _).
  - apply Forall_app. split; [done|]. by constructor.
  - done.
  - eexists _, _, _, _. split; [done|]. split; [done|]. split; [done|]. split; [done|]. rewrite H4.
    rewrite stream_app, zlen_app. unfold x, stream at 2. cbn [map concat ev_data].
    replace ((0 <=? n) && (n <=? want)) with true by lia. rewrite app_nil_r, zlen_take, zlen_fit. lia.
Qed.

Lemma pulls_lies r w want w' evs d pe : pulls E r w want w' evs d pe -> pe = PBad -> exists ev, ev ∈ evs /\ lies ev.
Proof.
  induction 1 as [w want Hw|w want Hw|w want buf w' n q e Hw Hb Hr Hn|w want buf w' n q e Hw Hb Hr Hn
    |w want buf w1 n q w' evs d pe Hw Hb Hr Hn Hp IH]; try done.
  - intros _. eexists. split; [left|]. done.
  - intros Hpe. destruct (IH Hpe) as (ev & H1 & H2). exists ev. split; [by right|done].
Qed.
Lemma fetch_lies r w cm upto w' evs d cm1 : fetch_rel E r w cm upto w' evs d cm1 PBad -> exists ev, ev ∈ evs /\ lies ev.
Proof. intros [(_ & _ & _ & _ & _ & H)|(_ & _ & H & _)]; [done|]. by eapply pulls_lies. Qed.

(** ** The shared object is a window on the stream *)
Definition window (D : Z) (L : list event) (cm : bufferedCommon) : Prop :=
  bc_bytes cm = drop (Z.to_nat (bc_start cm)) (stream L) /\
  buf_end cm = zlen (stream L) /\
  match bc_err cm with Some e => terminal D L = Some e | None => first_error L = None /\ bc_length cm = D end.

Lemma window_same D L cm cm' :
  window D L cm -> bc_bytes cm' = bc_bytes cm -> bc_start cm' = bc_start cm -> bc_err cm' = bc_err cm ->
  bc_length cm' = bc_length cm -> window D L cm'.
Proof. unfold window, buf_end. by intros H -> -> -> ->. Qed.
Lemma window_restart D L cm bs m cm' :
  window D L cm -> 0 <= bc_start cm -> restart bs m cm cm' -> window D L cm'.
Proof.
  intros (H1 & H2 & H3) H0 Hr. pose proof (restart_end _ _ _ _ Hr) as He. destruct Hr as (R1 & R2 & R3 & R4 & R5 & R6 & _).
  unfold window. rewrite He, R2, R4. split; [|done]. rewrite R6, H1, drop_drop. f_equal. lia.
Qed.

Lemma window_fetch D L cm r bs c m w upto w' evs d cm1 pe :
  window D L cm -> live_buf bs c cm r m -> Forall not_close L -> polite r D L -> (0 <= D -> zlen (stream L) <= D) ->
  upto - buf_end cm <= 2 ^ 62 ->
  fetch_rel E r w cm upto w' evs d cm1 pe ->
  window D (L ++ evs) cm1 /\ calls_on r evs = evs /\ stream (L ++ evs) = stream L ++ d /\
  polite r D (L ++ evs) /\ Forall not_close (L ++ evs) /\ (0 <= D -> zlen (stream (L ++ evs)) <= D) /\
  (forall before ev after, evs = before ++ ev :: after ->
     zlen (stream L) < upto /\ exists len n got err, ev = EvRead r len n got err /\ zlen (stream (L ++ before)) + len < upto + 65536).
Proof.
  intros (W1 & W2 & W3) [L1 L2 L3 L4 L5 L6 L7 L8 L9] Hnc Hpol Hle Hup [(Hx & -> & -> & -> & -> & ->)|(Hne & Hlt & Hp & ->)].
  - rewrite !app_nil_r. do 6 (split; [done|]). intros before ev after Heq. by destruct before.
  - rewrite Hne in W3. destruct W3 as [Hfe HD].
    destruct (pulls_stream _ _ _ _ _ _ _ Hp) as (P1 & P2 & P3).
    assert (Hwant : 0 <= fetch_want cm upto).
    { apply fetch_want_nonneg; try done. destruct L8; [by left|right; lia]. }
    destruct (pulls_len _ _ _ _ _ _ _ _ Hp Hwant) as (Q1 & Q2 & Q3).
    assert (Hcut : 0 <= D -> zlen (stream L) + fetch_want cm upto <= D).
    { intros H0. unfold fetch_want. rewrite HD, W2. gif; lia. }
    assert (Hsz : fetch_want cm upto < upto - zlen (stream L) + 65536).
    { pose proof (round_block_spec (upto - buf_end cm) ltac:(lia)) as [Hrb _]. unfold fetch_want, fetch_size.
      change blockSize with 65536 in Hrb. rewrite W2 in *. gif; lia. }
    assert (Hst : stream (L ++ evs) = stream L ++ d) by by rewrite stream_app, P2.
    assert (Hcl : forall before ev after, evs = before ++ ev :: after ->
      exists len n got err, ev = EvRead r len n got err /\ 0 < len /\
      first_error (L ++ before) = None /\ Forall not_close (L ++ before) /\
      zlen (stream (L ++ before)) + len = zlen (stream L) + fetch_want cm upto) by (intros; by eapply pulls_calls).
    split; [|split; [done|]]. 2: split; [done|split; [|split; [|split]]].
    + split; [|split].
      * cbn. rewrite Hst, W1. rewrite drop_app_le; [done|]. unfold buf_end, zlen in W2. lia.
      * unfold buf_end. cbn. rewrite Hst, !zlen_app, <- W2. unfold buf_end. lia.
      * unfold grow. cbn. destruct pe as [|e| |]; cbn in *.
        -- unfold fetch_eof. destruct (_ && _) eqn:Heof.
           ++ unfold terminal. rewrite first_error_app, Hfe, P3, Hst, zlen_app, (Q2 eq_refl).
              unfold fetch_want. rewrite W2, HD in *. replace (D >=? 0) with true by lia.
              replace ((0 <=? D) && (_ =? D)) with true by lia. done.
           ++ rewrite Hne, first_error_app, Hfe, P3. done.
        -- unfold terminal. by rewrite first_error_app, Hfe, P3.
        -- rewrite Hne, first_error_app, Hfe, P3. done.
        -- rewrite Hne, first_error_app, Hfe, P3. done.
    + apply polite_app; [done|]. intros before ev after Heq.
      destruct (Hcl before ev after Heq) as (len & n & got & err & -> & H1 & H2 & H3 & H4). split; [done|].
      split; [done|]. split; [done|]. split; [done|]. intros H0. rewrite H4. auto.
    + apply Forall_app. split; [done|]. apply pulls_events in Hp. eapply Forall_impl; [exact Hp|]. by intros ev [? _].
    + intros H0. rewrite Hst, zlen_app. specialize (Hcut H0). lia.
    + intros before ev after Heq. destruct (Hcl before ev after Heq) as (len & n & got & err & -> & H1 & H2 & H3 & H4).
      split; [lia|]. eexists _, _, _, _. split; [done|]. lia.
Qed.

(** ** The invariant *)
Record stream_inv (r : rid) (c : nat) (D : Z) (t : table) h : Prop := {
  si_own : own r c (open_table t) h;
  si_at : forall i pos e, t !! i = Some (At pos e) -> h_b h !! i = Some (at_offset c (Z.of_nat pos) e);
  si_shut : forall i, t !! i = Some Shut -> h_b h !! i = Some closed_buffered;
  si_cm : exists cm, h_c h !! c = Some (CBuffered cm) /\
    (~ all_closed (open_table t) -> window D (calls_on r (h_log h)) cm /\ Forall not_close (calls_on r (h_log h))) /\
    (all_closed (open_table t) -> bc_bytes cm = []);
  si_log : polite r D (calls_on r (h_log h));
  si_le : 0 <= D -> zlen (stream (calls_on r (h_log h))) <= D
}.

(** What is said about one call on an open handle. *)
Definition stream_call (r : rid) (D : Z) (pos : nat) (e : bool) (f : op) h h' (o : out res) : Prop :=
  let L := calls_on r (h_log h) in
  let L' := calls_on r (h_log h') in
  exists evs, L' = L ++ evs /\ calls_made r L evs pos e f /\
  match o with
  | ORet x => stream_answer D (stream L') (terminal D L') r pos e f x
  | OPanic _ => (exists ev, ev ∈ evs /\ lies ev) /\ exists p, f = Read p
  | OSpin => exists p, f = Read p
  end.

Lemma filled_0 d pos p : filled d pos 0 p = p.
Proof. unfold filled. by rewrite take_0. Qed.

Lemma stream_step r c D t h cmd h' o :
  go_env E -> stream_inv r c D t h -> go_cmd cmd -> ~ wraps r cmd -> feasible h' ->
  exec E fuel h cmd = (h', o) ->
  stream_inv r c D (follow t cmd o) h' /\
  (forall i f pos e, cmd = Call i f -> t !! i = Some (At pos e) -> stream_call r D pos e f h h' o).
Proof.
  intros Hge Hsi Hgo Hnw Hfe Hex. pose proof Hsi as [Hown Hat Hsh (cm & Hcm & Hwin & Hemp) Hlog Hle].
  pose proof (own_step E fuel r c (open_table t) h cmd h' o Hge Hown Hgo Hnw Hfe Hex) as [Hown' _].
  rewrite <- follow_track in Hown'.
  assert (Hf : feasible h) by (eapply exec_feasible; [exact Hex|done]).
  assert (Hsh' : forall i, follow t cmd o !! i = Some Shut -> h_b h' !! i = Some closed_buffered).
  { intros i Hi.
    assert (Ht : t !! i = Some Shut \/ (cmd = Call i Close /\ (exists err, o = ORet (RErr err)) /\ exists pos e, t !! i = Some (At pos e))).
    { destruct cmd as [j f| | | | | | |]; try (by left). destruct f; try (by left); cbn in Hi;
        destruct o as [[| | | | |k [er|]| | |]| |]; try (by left); destruct (t !! j) as [[|pos e]|] eqn:Hj; try (by left).
      - destruct (decide (i = j)) as [->|Hne]; [by rewrite lookup_insert in Hi|rewrite lookup_insert_ne in Hi by done; by left].
      - destruct (decide (i = j)) as [->|Hne]; [right; eauto 10|rewrite lookup_insert_ne in Hi by done; by left].
      - destruct (decide (i = k)) as [->|Hne]; [by rewrite lookup_insert in Hi|rewrite lookup_insert_ne in Hi by done; by left]. }
    destruct Ht as [Ht|(-> & (err & ->) & pos & e & Ht)].
    - eapply shut_stays; [by apply Hsh|done|exact Hex].
    - pose proof (Hat _ _ _ Ht) as Hb. unfold exec in Hex. cbn [cmd_prog] in Hex. rewrite Hb in Hex. cbn [method at_offset] in Hex.
      destruct (bf_open_wf h i _ (ow_wf _ _ _ _ Hown) Hb eq_refl) as (c' & cm' & r' & m & Ho). rewrite run_rerr in Hex.
      pose proof (run_bf_Close E h i _ c' cm' r' m (ow_wf _ _ _ _ Hown) Ho (proj1 Hf)) as HC. cbv zeta in HC.
      assert (Hlt : (i < length (h_b h))%nat) by by eapply lookup_lt_Some.
      destruct (zlen m >? 1); [destruct HC as (cm2 & _ & HC)|]; rewrite HC in Hex.
      + injection Hex as <- _. cbn. by apply list_lookup_insert.
      + destruct (is_closer _); [destruct (ev_close _ _ _) as [w2 e2]|]; injection Hex as <- _; cbn; by apply list_lookup_insert. }
  assert (Hcase : (forall i f, cmd = Call i f -> open_table t !! i <> Some true) \/
                  exists i f pos e, cmd = Call i f /\ t !! i = Some (At pos e)).
  { destruct cmd as [i f| | | | | | |]; try (left; congruence).
    destruct (t !! i) as [[|pos e]|] eqn:Hi.
    - left. intros i' f' [= <- <-]. rewrite open_lookup, Hi. by intros (? & ? & [=]).
    - right. eauto 10.
    - left. intros i' f' [= <- <-]. rewrite open_lookup, Hi. by intros (? & ? & [=]). }
  destruct Hcase as [Hn|(i & f & pos & e & -> & Hi)].
  { destruct (own_frame E fuel r c (open_table t) h cmd h' o Hge Hown Hgo Hnw Hfe Hn Hex) as (Hb & Hc & _ & evs & Hl & Hev).
    rewrite follow_other in * by done.
    assert (HL : calls_on r (h_log h') = calls_on r (h_log h)) by by rewrite Hl, calls_on_app, Hev, app_nil_r.
    split.
    - constructor; try rewrite HL; try done.
      + intros i pos e Hi. rewrite Hb; [by apply Hat|]. apply open_lookup. eauto.
      + exists cm. by rewrite Hc.
    - intros i f pos e -> Hi. exfalso. apply (Hn i f eq_refl), open_lookup. eauto. }
  assert (Hopen : open_table t !! i = Some true) by (apply open_lookup; eauto).
  assert (Hna : ~ all_closed (open_table t)) by (intros Ha; by apply (Ha i)).
  destruct (Hwin Hna) as [Hwd Hnc].
  pose proof (Hat _ _ _ Hi) as Hb. pose proof (ow_wf _ _ _ _ Hown) as Hwf.
  set (b := {| bb_common := Some c; bb_offset := Z.of_nat pos; bb_eof := e; bb_closed := false |}).
  change (at_offset c (Z.of_nat pos) e) with (BBuffered b) in Hb.
  destruct (bf_open_wf h i b Hwf Hb eq_refl) as (c' & cm' & r' & m & Ho).
  pose proof Ho as [bf_b0 bf_ncl0 bf_c0 bf_cm0 bf_live0 bf_eof0]. cbn in bf_c0. injection bf_c0 as <-.
  rewrite Hcm in bf_cm0. injection bf_cm0 as <-.
  assert (r' = r) as ->.
  { pose proof (ow_rd _ _ _ _ Hown Hna) as Hrd. unfold reader_at in Hrd. rewrite Hcm in Hrd. cbn in Hrd.
    rewrite (lb_r _ _ _ _ _ bf_live0) in Hrd. congruence. }
  destruct Hf as [Hf1 Hf2]. pose proof (wf_t _ Hwf _ _ Hcm) as Hbe.
  assert (Hlc : (c < length (h_c h))%nat) by by eapply lookup_lt_Some.
  assert (Hlb : (i < length (h_b h))%nat) by by eapply lookup_lt_Some.
  pose proof bf_live0 as [L1 L2 L3 L4 L5 L6 L7 L8 L9]. pose proof Hwd as (W1 & W2 & W3).
  set (L := calls_on r (h_log h)) in *.
  assert (Hpos : bc_start cm <= Z.of_nat pos <= buf_end cm).
  { destruct (bf_member_self _ _ _ _ _ _ _ Ho) as [Hm Hbo]. change (bb_offset b) with (Z.of_nat pos) in Hbo. rewrite <- Hbo. by apply L5. }
  (* nothing changes *)
  assert (Hsame : h' = h -> follow t (Call i f) o = t -> (forall p, f = Read p -> e = true) ->
    match o with ORet x => stream_answer D (stream L) (terminal D L) r pos e f x | _ => False end ->
    stream_inv r c D (follow t (Call i f) o) h' /\
    forall i0 f0 pos0 e0, Call i f = Call i0 f0 -> t !! i0 = Some (At pos0 e0) -> stream_call r D pos0 e0 f0 h h' o).
  { intros -> Hfo Hre Hans. rewrite Hfo. split; [done|]. intros i0 f0 pos0 e0 [= <- <-] Hi0.
    rewrite Hi in Hi0. injection Hi0 as <- <-. exists []. rewrite app_nil_r. split; [done|]. split; [|by destruct o].
    destruct f; try done; [cbn; by rewrite (Hre p)|by left]. }
  unfold exec in Hex. cbn [cmd_prog] in Hex. rewrite Hb in Hex. cbn in Hgo.
  destruct f as [|p| |off wh|p off|wr| |]; cbn [method] in Hex; cbn in Hgo.
  - (* BytesRemaining *)
    rewrite run_rint, (run_bf_BytesRemaining _ _ _ _ _ _ _ _ Ho) in Hex. injection Hex as <- <-.
    apply Hsame; [done|done|done|]. cbn. f_equal. unfold terminal.
    destruct (bc_err cm) as [er|] eqn:Her.
    + unfold terminal in W3. rewrite W3. rewrite L9 by congruence. pose proof (zlen_nonneg (bc_bytes cm)).
      replace (buf_end cm <? 0) with false by (unfold buf_end in *; lia).
      destruct e; [|lia]. destruct (bf_eof0 eq_refl) as [He _]. cbn in He. lia.
    + destruct W3 as [-> <-]. destruct e; [destruct (bf_eof0 eq_refl) as [_ He]; done|].
      destruct L8 as [->|L8]; [done|]. replace (bc_length cm <? 0) with false by (unfold buf_end in *; pose proof (zlen_nonneg (bc_bytes cm)); lia).
      destruct (_ && _) eqn:Hx; [|done]. lia.
  - (* Read *)
    unfold max_slice in Hgo. rewrite run_rread in Hex.
    pose proof (run_bf_Read E fuel h i b c cm r m p Hwf Ho Hf1 ltac:(lia) ltac:(lia)) as HR.
    change (bb_eof b) with e in HR. change (bb_offset b) with (Z.of_nat pos) in HR.
    destruct e.
    { rewrite HR in Hex. injection Hex as <- <-. destruct (bf_eof0 eq_refl) as [He Her]. cbn in He.
      destruct (bc_err cm) as [er|] eqn:Herr; [|done].
      assert (Hmin : Nat.min (length p) (length (stream L) - pos) = 0%nat) by (unfold zlen in *; lia).
      apply Hsame; [done| |done|].
      - cbn. rewrite Hi. cbn. rewrite Nat.add_0_r. by apply insert_id.
      - cbn. rewrite Hmin, filled_0. eexists. split; [done|]. split; [done|]. congruence. }
    assert (Hup : Z.of_nat pos + zlen p - buf_end cm <= 2 ^ 62) by lia.
    destruct HR as (w' & evs & d & cm1 & pe & Hf & HR).
    destruct (window_fetch D L cm r _ c m _ _ _ _ _ _ _ Hwd bf_live0 Hnc Hlog Hle Hup Hf) as (F1 & F2 & F3 & F4 & F5 & F6 & F7).
    pose proof (fetch_rel_facts E r (h_w h) cm _ w' evs d cm1 pe Hf L4 Hup L8 L9) as (G1 & G2 & G3 & G4 & G5 & G6 & G7 & G8 & G9 & G10 & G11).
    pose proof F1 as (V1 & V2 & V3).
    assert (HLL : forall h2 : heap W, h_log h2 = h_log h ++ evs -> calls_on r (h_log h2) = L ++ evs).
    { intros h2 ->. by rewrite calls_on_app, F2. }
    assert (Hcall : forall h2 o2, h_log h2 = h_log h ++ evs ->
      match o2 with ORet x => stream_answer D (stream (L ++ evs)) (terminal D (L ++ evs)) r pos false (Read p) x | OPanic _ => exists ev, ev ∈ evs /\ lies ev | OSpin => True end ->
      forall i0 f0 pos0 e0, Call i (Read p) = Call i0 f0 -> t !! i0 = Some (At pos0 e0) -> stream_call r D pos0 e0 f0 h h2 o2).
    { intros h2 o2 Hl2 Ha i0 f0 pos0 e0 [= <- <-] Hi0. rewrite Hi in Hi0. injection Hi0 as <- <-.
      unfold stream_call. rewrite (HLL _ Hl2). exists evs. split; [done|]. split; [|destruct o2; eauto].
      intros before ev after Heq. by apply (F7 before ev after). }
    destruct pe as [|er| |].
    3,4: rewrite HR in Hex; injection Hex as <- <-; (split; [|apply Hcall; [done|]; try done; by eapply fetch_lies]);
      constructor; rewrite ?HLL by done; try done; exists cm1; cbn; rewrite list_lookup_insert by done; (split; [done|]); (split; [done|]); intros Ha; by destruct Hna.
    all: destruct HR as (cm2 & Hre & Hn & HR); rewrite HR in Hex; injection Hex as <- <-;
      set (n := Z.min (Z.of_nat pos + zlen p) (buf_end cm1) - Z.of_nat pos) in *;
      set (eof := Z.of_nat pos + zlen p >? buf_end cm1) in *;
      assert (Hk : Z.to_nat n = Nat.min (length p) (length (stream (L ++ evs)) - pos)) by
        (unfold n; rewrite V2; unfold zlen; assert (Z.of_nat pos <= zlen (stream (L ++ evs))) by (rewrite F3, zlen_app, <- W2; pose proof (zlen_nonneg d); lia); unfold zlen in *; lia);
      assert (Herr : eof = true -> is_Some (bc_err cm1) /\ bc_err cm1 = terminal D (L ++ evs)) by
        (intros Heof; assert (bc_err cm1 <> None) by (apply G11; [eauto|unfold eof in Heof; lia]);
         destruct (bc_err cm1); [split; [eauto|by rewrite V3]|done]);
      assert (Hse : is_some_err (if eof then bc_err cm1 else None) = eof) by
        (destruct eof; [|done]; destruct (Herr eq_refl) as [[? ->] _]; done);
      assert (Hwin2 : window D (L ++ evs) cm2) by
        (destruct (_ && _) in Hre; [eapply window_restart; [exact F1|lia|done]|by subst cm2]).
    all: (split; [|apply Hcall; [done|]]).
    1,3: constructor; rewrite ?HLL by done; try done;
      [ cbn [follow]; rewrite Hi, Hse; intros j pos' e' Hj; cbn;
        destruct (decide (i = j)) as [<-|Hne];
        [ rewrite lookup_insert in Hj; injection Hj as <- <-; rewrite list_lookup_insert by done; do 2 f_equal; unfold n; lia
        | rewrite lookup_insert_ne in Hj by done; rewrite list_lookup_insert_ne by done; by apply Hat ]
      | exists cm2; cbn [h_c set_b heap_cwl]; rewrite list_lookup_insert by done; (split; [done|]); (split; [done|]); intros Ha; exfalso;
        apply (Ha i), open_lookup; cbn [follow]; rewrite Hi, lookup_insert; eauto ].
    all: cbn [stream_answer orb]; rewrite <- Hk; exists (if eof then bc_err cm1 else None); split.
    1,3: f_equal; [lia|]; unfold filled; f_equal; f_equal; rewrite V1, drop_drop; f_equal; lia.
    all: replace (length (stream (L ++ evs)) <? pos + length p)%nat with eof by (unfold eof; rewrite V2; unfold zlen; lia);
      destruct eof; auto.
  - (* Close *)
    rewrite run_rerr in Hex. pose proof (run_bf_Close E h i b c cm r m Hwf Ho Hf1) as HC. cbv zeta in HC.
    destruct (zlen m >? 1) eqn:Hm1.
    + destruct HC as (cm' & Hre & HC). rewrite HC in Hex. injection Hex as <- <-.
      assert (Hw' : window D L cm').
      { destruct (_ =? _) in Hre.
        - eapply (window_restart D L (with_bodies cm (Some (set_del i m)))); [|done|exact Hre]. by eapply window_same.
        - subst cm'. by eapply window_same. }
      split.
      * constructor; try done.
        -- cbn [follow]. rewrite Hi. intros j pos' e' Hj. cbn. destruct (decide (i = j)) as [<-|Hne].
           ++ by rewrite lookup_insert in Hj.
           ++ rewrite lookup_insert_ne in Hj by done. rewrite list_lookup_insert_ne by done. by apply Hat.
        -- exists cm'. cbn [h_c set_b set_c]. rewrite list_lookup_insert by done. split; [done|]. split; [done|]. intros Ha. exfalso.
           apply (own_refs_nil _ _ _ _ Hown') in Ha. pose proof (bf_count_m _ _ _ _ _ _ _ Ho) as Hcnt.
           pose proof (zlen_refs_del (h_b h) c i (BBuffered b) closed_buffered Hb eq_refl eq_refl) as Hz.
           cbn [h_b set_b] in Ha. rewrite Ha in Hz. rewrite zlen_nil in Hz. lia.
      * intros i0 f0 pos0 e0 [= <- <-] Hi0. exists []. rewrite app_nil_r. split; [done|]. split; [by left|]. cbn; eauto.
    + assert (Hall : h_b h' = <[i := closed_buffered]> (h_b h) -> all_closed (open_table (follow t (Call i Close) o))).
      { intros Hb'. rewrite (own_refs_nil _ _ _ _ Hown'). pose proof (bf_count_m _ _ _ _ _ _ _ Ho) as Hcnt.
        pose proof (zlen_refs_del (h_b h) c i (BBuffered b) closed_buffered Hb eq_refl eq_refl) as Hz. rewrite <- Hb' in Hz.
        destruct (refs (h_b h') c) as [|x l]; [done|]. rewrite zlen_cons in Hz. pose proof (zlen_nonneg l). lia. }
      rewrite HC in Hex.
      assert (Hgen : forall evs, (evs = [] \/ exists err, evs = [EvClose r err]) -> (exists err, o = ORet (RErr err)) ->
        h_b h' = <[i := closed_buffered]> (h_b h) -> h_c h' = <[c := CBuffered (dead_buffered cm)]> (h_c h) ->
        h_log h' = h_log h ++ evs ->
        stream_inv r c D (follow t (Call i Close) o) h' /\
        forall i0 f0 pos0 e0, Call i Close = Call i0 f0 -> t !! i0 = Some (At pos0 e0) -> stream_call r D pos0 e0 f0 h h' o).
      { intros evs Hevs (err & Hoe) Hb' Hc' Hl'. specialize (Hall Hb').
        assert (Hev : calls_on r evs = evs).
        { destruct Hevs as [->|(er & ->)]; [done|]. unfold calls_on. by rewrite filter_cons, decide_True. }
        assert (HL' : calls_on r (h_log h') = L ++ evs) by by rewrite Hl', calls_on_app, Hev.
        assert (Hs' : stream (L ++ evs) = stream L).
        { destruct Hevs as [->|(er & ->)]; rewrite stream_app; by rewrite app_nil_r. }
        split.
        - constructor; rewrite ?HL', ?Hs'; try done.
          + subst o. cbn [follow]. rewrite Hi. intros j pos' e' Hj. rewrite Hb'. destruct (decide (i = j)) as [<-|Hne].
            * by rewrite lookup_insert in Hj.
            * rewrite lookup_insert_ne in Hj by done. rewrite list_lookup_insert_ne by done. by apply Hat.
          + exists (dead_buffered cm). rewrite Hc', list_lookup_insert by done. done.
          + destruct Hevs as [->|(er & ->)]; [by rewrite app_nil_r|]. apply polite_snoc; [done|]. done.
        - intros i0 f0 pos0 e0 [= <- <-] Hi0. unfold stream_call. rewrite HL'. subst o. exists evs. split; [done|]. split; [done|]. cbn; eauto. }
      destruct (is_closer (ev_caps E r)).
      * destruct (ev_close E (h_w h) r) as [w' err]. injection Hex as <- <-. eapply (Hgen [EvClose r err]); eauto.
      * injection Hex as <- <-. eapply (Hgen []); eauto. by rewrite app_nil_r.
  - cbn in Hex. injection Hex as <- <-. by apply Hsame.
  - cbn in Hex. injection Hex as <- <-. by apply Hsame.
  - cbn in Hex. injection Hex as <- <-. by apply Hsame.
  - (* Copy *)
    rewrite run_rbody, (run_bf_Copy _ _ _ _ _ _ _ _ Hwf Ho) in Hex. injection Hex as <- <-.
    pose proof (own_fresh _ _ _ _ Hown) as Hfr.
    split.
    + constructor; try done.
      * cbn [follow]. rewrite Hi. intros j pos' e' Hj. cbn. destruct (decide (length (h_b h) = j)) as [<-|Hne].
        -- rewrite lookup_insert in Hj. injection Hj as <- <-. rewrite lookup_app_r, Nat.sub_diag by lia. done.
        -- rewrite lookup_insert_ne in Hj by done. apply Hat in Hj. rewrite lookup_app_l; [done|]. by eapply lookup_lt_Some.
      * eexists. cbn. rewrite list_lookup_insert by done. split; [done|]. split.
        -- intros _. split; [|done]. by eapply window_same.
        -- intros Ha. exfalso. apply (Ha (length (h_b h))), open_lookup. cbn [follow]. rewrite Hi, lookup_insert. eauto.
    + intros i0 f0 pos0 e0 [= <- <-] Hi0. exists []. rewrite app_nil_r. split; [done|]. split; [done|]. cbn; eauto.
  - rewrite run_rreader, (run_bf_Unwrap _ _ _ _ _ _ _ _ Ho) in Hex. injection Hex as <- <-. by apply Hsame.
Qed.

(** ** Programs *)
Lemma stream_new r h cmd h1 i D :
  go_env E -> unowned r h -> go_cmd cmd -> wraps r cmd -> feasible h1 ->
  exec E fuel h cmd = (h1, ORet (RBody i None)) -> streaming E fuel r h1 i D ->
  stream_inv r (length (h_c h)) D {[ i := At 0 false ]} h1.
Proof.
  intros Hge Hu Hgo Hw Hfe Hex [HD Hkind].
  destruct (own_new E fuel r h cmd h1 i Hge Hu Hgo Hw Hfe Hex) as (-> & Hown & Hnc).
  assert (exists len, exec E fuel h cmd = run E h (rfrom (FromReaderAndLength r len))) as [len Hlen].
  { destruct Hw as [->|[n ->]]; eexists; reflexivity. }
  rewrite Hlen in Hex. unfold rfrom in Hex. rewrite run_bind, run_From in Hex.
  destruct (find_len E (h_w h) r len) as [[w evs] x] eqn:Hfl. destruct x as [l|e|]; cbn in Hex; try done.
  injection Hex as <-.
  assert (Hlb : forall x, (h_b h ++ [x]) !! length (h_b h) = Some x) by (intros; rewrite lookup_app_r, Nat.sub_diag by lia; done).
  assert (Hlc : forall x, (h_c h ++ [x]) !! length (h_c h) = Some x) by (intros; rewrite lookup_app_r, Nat.sub_diag by lia; done).
  assert (Hm1 : l = -1 \/ 0 <= l).
  { clear -Hfl. revert Hfl. unfold find_len. gif; [intros [= <- <- <-]; right; lia|]. gif.
    - destruct (ev_stat E (h_w h) r) as [w1 [n [e|]]]; [done|]. gif; intros [= <- <- <-]. right; lia.
    - gif; [|intros [= <- <- <-]; by left]. destruct (ev_seek E (h_w h) r 0 SeekEnd) as [w1 [n [e|]]]; [done|].
      gif; [|done]. destruct (ev_seek E w1 r 0 SeekStart) as [w2 [n2 [e|]]]; intros [= <- <- <-]. right; lia. }
  assert (l = D) as ->.
  { unfold exec in HD. cbn [cmd_prog set_b set_c h_b] in HD. rewrite Hlb in HD. unfold new_pair in HD.
    destruct (cp_readerat (ev_caps E r)), (cp_seeker (ev_caps E r)), (l >=? 0) eqn:Hl; cbn [andb orb] in HD;
    cbn in HD; rewrite Hlb in HD; cbn in HD; rewrite Hlc in HD; cbn in HD; revert HD; repeat gif; cbn; intros [= HD]; lia. }
  assert (Hnp : new_pair E (length (h_c h)) (length (h_b h)) r D =
    (at_offset (length (h_c h)) 0 false,
     CBuffered {| bc_r := Some r; bc_err := None; bc_bodies := Some [length (h_b h)]; bc_bytes := []; bc_length := D; bc_start := 0; bc_refcnt := 1 |})).
  { unfold new_pair. replace (D >=? 0) with (0 <=? D) by lia.
    destruct (cp_readerat (ev_caps E r)), (cp_seeker (ev_caps E r)), (0 <=? D); try done. }
  rewrite Hnp in *. cbn [fst snd] in *.
  assert (Hevs : calls_on r evs = [] \/ exists n err, calls_on r evs = [EvStat r n err]).
  { revert Hfl. unfold find_len. gif; [intros [= <- <- <-]; by left|]. gif.
    - destruct (ev_stat E (h_w h) r) as [w1 [n [e|]]]; [done|]. gif; intros [= <- <- <-]. right. eexists _, _.
      unfold calls_on. by rewrite filter_cons, decide_True.
    - gif; [|intros [= <- <- <-]; by left]. destruct (ev_seek E (h_w h) r 0 SeekEnd) as [w1 [n [e|]]]; [done|].
      gif; [|done]. destruct (ev_seek E w1 r 0 SeekStart) as [w2 [n2 [e|]]]; intros [= <- <- <-]. exfalso.
      destruct (cp_readerat (ev_caps E r)), (cp_seeker (ev_caps E r)); cbn in *; lia. }
  assert (HL : calls_on r (h_log h ++ evs) = calls_on r evs) by by rewrite calls_on_app, (un_log _ _ Hu).
  assert (Hst : stream (calls_on r evs) = [] /\ first_error (calls_on r evs) = None).
  { destruct Hevs as [->|(n & err & ->)]; done. }
  constructor; cbn [set_b set_c h_log h_b h_c heap_wl] in *; rewrite ?HL in *.
  - unfold open_table. by rewrite map_fmap_singleton.
  - intros j pos e Hj. apply lookup_singleton_Some in Hj as [<- [= <- <-]]. apply Hlb.
  - intros j Hj. by apply lookup_singleton_Some in Hj as [<- Hj].
  - eexists. split; [apply Hlc|]. split; [|done]. intros _. split; [|done]. unfold window, buf_end. cbn. destruct Hst as [-> ->]. done.
  - destruct Hevs as [->|(n & err & ->)]; [by intros [] ? ?|]. apply (polite_snoc r D []); [by intros [] ? ?|]. done.
  - destruct Hst as [-> _]. done.
Qed.

Lemma unowned_wrapped r w h1 i cs h2 os :
  wrapped_once E fuel r w h1 i cs h2 os ->
  go_env E /\ exists h0 new, unowned r h0 /\ go_cmd new /\ wraps r new /\ feasible h1 /\
    exec E fuel h0 new = (h1, ORet (RBody i None)) /\ Forall go_cmd cs /\ Forall (fun c => ~ wraps r c) cs /\
    history E fuel h1 cs = (h2, os) /\ feasible h2.
Proof.
  intros (Hge & cs0 & os0 & h0 & new & Hgo & Hnw & Hw & H0 & H1 & H2 & Hf). split; [done|].
  apply Forall_app in Hgo as [Hgo0 Hgo]. apply Forall_cons in Hgo as [Hg1 Hg2]. apply Forall_app in Hnw as [Hnw0 Hnw].
  assert (Hf1 : feasible h1) by (by eapply history_feasible).
  assert (Hf0 : feasible h0) by (by eapply exec_feasible).
  exists h0, new. split; [|done]. eapply (unowned_history E fuel r cs0 (initial w)); try done. apply unowned_initial.
Qed.

Lemma stream_history r c D cs : forall t h h' os,
  go_env E -> stream_inv r c D t h -> Forall go_cmd cs -> Forall (fun c => ~ wraps r c) cs -> feasible h' ->
  history E fuel h cs = (h', os) -> stream_inv r c D (follows t cs os) h'.
Proof.
  induction cs as [|cmd cs IH]; intros t h h' os Hge Hsi Hgo Hnw Hf H; cbn in H; [by injection H as <- <-|].
  apply Forall_cons in Hgo as [Hg1 Hg2]. apply Forall_cons in Hnw as [Hn1 Hn2].
  destruct (exec E fuel h cmd) as [h1 o] eqn:Hex.
  assert (Hgen : forall os', history E fuel h1 cs = (h', os') -> os = o :: os' -> stream_inv r c D (follows t (cmd :: cs) os) h').
  { intros os' Hh ->. cbn. eapply (IH _ h1); try done. eapply stream_step; try done. by eapply history_feasible. }
  destruct o.
  - destruct (history E fuel h1 cs) as [h2 os'] eqn:Hh. injection H as <- <-. by eapply Hgen.
  - destruct (history E fuel h1 cs) as [h2 os'] eqn:Hh. injection H as <- <-. by eapply Hgen.
  - injection H as <- <-. cbn. replace (follows _ cs []) with (follow t cmd OSpin) by by destruct cs. by eapply stream_step.
Qed.

Lemma stream_program r w h1 i cs h2 os D :
  wrapped_once E fuel r w h1 i cs h2 os -> streaming E fuel r h1 i D ->
  exists c, stream_inv r c D (follows {[ i := At 0 false ]} cs os) h2.
Proof.
  intros Hw HD. apply unowned_wrapped in Hw as (Hge & h0 & new & Hu & Hg & Hw & Hf1 & Hex & Hgo & Hnw & Hh & Hf).
  exists (length (h_c h0)). eapply stream_history; try done. by eapply stream_new.
Qed.
End Stream.
