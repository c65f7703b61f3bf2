(** * Bodies over Readers that can be read at any place (proofs) *)
From stdpp Require Import gmap.
From Coq Require Import ZifyBool.
From Verif Require Export Family SourceSpec WitnessSource.

(** The two kinds, and what they have in common. *)
Inductive skind := KAt | KSeek.
Definition kbody (k : skind) (c : nat) (err : option error) (off : Z) : bobj :=
  match k with
  | KAt => BReaderAt {| rb_common := Some c; rb_err := err; rb_offset := off; rb_closed := false |}
  | KSeek => BSeeker {| sb_common := Some c; sb_err := err; sb_offset := off; sb_closed := false |}
  end.
Definition kclosed (k : skind) : bobj :=
  match k with
  | KAt => BReaderAt {| rb_common := None; rb_err := None; rb_offset := 0; rb_closed := true |}
  | KSeek => BSeeker {| sb_common := None; sb_err := None; sb_offset := 0; sb_closed := true |}
  end.
Definition kcommon (k : skind) (r : rid) (len cnt : Z) : cobj :=
  match k with
  | KAt => CReaderAt {| rc_r := Some r; rc_at := Some r; rc_length := len; rc_refcnt := cnt |}
  | KSeek => CSeeker {| sc_s := Some r; sc_length := len; sc_refcnt := cnt |}
  end.

Section Source.
Context {W : Type} (E : env W) (fuel : nat).
Implicit Types h : heap W.

Definition krd (k : skind) := match k with KAt => ra_rd E | KSeek => sk_rd E end.
Definition kfetch (k : skind) := match k with KAt => ra_fetch E | KSeek => sk_fetch E end.

Lemma kfetch_eq k r h p len off :
  kfetch k r h p len off =
  let avail := len - off in
  let x := if zlen p >? avail then avail else zlen p in
  let fin '(n, p', e) := (n, p', match e with None => if zlen p >? avail then Some EOF else None | Some e => Some e end) in
  if avail >? 0 then
    match krd k r h (take (Z.to_nat x) p) off with
    | (h1, ORet (n, q, e)) => (h1, ORet (fin (n, q ++ drop (Z.to_nat x) p, e)))
    | (h1, OPanic e) => (h1, OPanic e)
    | (h1, OSpin) => (h1, OSpin)
    end
  else (h, ORet (fin (0, p, None))).
Proof. by destruct k. Qed.

(** A handle and the object shared with its copies. *)
Record kopen (k : skind) h i c err off r len cnt : Prop := {
  ko_b : h_b h !! i = Some (kbody k c err off);
  ko_c : h_c h !! c = Some (kcommon k r len cnt);
  ko_off : 0 <= off <= len;
  ko_len : len <= max_i64
}.
Lemma kopen_ra h i c err off r len cnt :
  kopen KAt h i c err off r len cnt ->
  ra_open h i {| rb_common := Some c; rb_err := err; rb_offset := off; rb_closed := false |} c
    {| rc_r := Some r; rc_at := Some r; rc_length := len; rc_refcnt := cnt |} r.
Proof. intros [H1 H2 H3 H4]. constructor; try done; cbn; lia. Qed.
Lemma kopen_sk h i c err off r len cnt :
  kopen KSeek h i c err off r len cnt ->
  sk_open h i {| sb_common := Some c; sb_err := err; sb_offset := off; sb_closed := false |} c
    {| sc_s := Some r; sc_length := len; sc_refcnt := cnt |} r.
Proof. intros [H1 H2 H3 H4]. constructor; try done; cbn; lia. Qed.

Ltac kind Ho :=
  match type of Ho with kopen ?k ?h ?i ?c ?err ?off ?r ?len ?cnt =>
    unfold exec; cbn [cmd_prog]; rewrite (ko_b _ _ _ _ _ _ _ _ _ Ho);
    destruct k; cbn [kbody method]; [pose proof (kopen_ra _ _ _ _ _ _ _ _ Ho) as Ho'|pose proof (kopen_sk _ _ _ _ _ _ _ _ Ho) as Ho'] end.

Lemma k_BytesRemaining k h i c err off r len cnt :
  kopen k h i c err off r len cnt -> exec E fuel h (Call i BytesRemaining) = (h, ORet (RInt (len - off))).
Proof.
  intros Ho. pose proof Ho as [_ _ Hoff _]. kind Ho; rewrite run_rint; [rewrite (run_ra_BytesRemaining _ _ _ _ _ _ _ Ho')|rewrite (run_sk_BytesRemaining _ _ _ _ _ _ _ Ho')]; cbn; repeat f_equal; lia.
Qed.
Lemma k_Read k h i c err off r len cnt p :
  kopen k h i c err off r len cnt ->
  exec E fuel h (Call i (Read p)) =
  match err with
  | Some e => (h, ORet (RRead 0 p (Some e)))
  | None =>
      match kfetch k r h p len off with
      | (h1, ORet (n, p', e)) =>
          let h2 := set_b h1 (<[i := kbody k c e (off + n)]> (h_b h1)) in
          (match e with
           | Some _ => if off + n <? len then set_c h2 (<[c := kcommon k r (off + n) cnt]> (h_c h2)) else h2
           | None => h2
           end, ORet (RRead n p' e))
      | (h1, OPanic e) => (h1, OPanic e)
      | (h1, OSpin) => (h1, OSpin)
      end
  end.
Proof.
  intros Ho. pose proof Ho as [_ _ Hoff _].
  kind Ho; rewrite run_rread; [rewrite (run_ra_Read _ _ _ _ _ _ _ _ Ho')|rewrite (run_sk_Read _ _ _ _ _ _ _ _ Ho')]; cbn [rb_err sb_err rb_offset sb_offset rc_length sc_length];
    (destruct err; [done|]); cbv zeta; unfold ra_clamp, sk_clamp; replace (off >? len) with false by lia;
    cbn [kfetch]; [destruct (ra_fetch E r h p len off) as [h1 [[[n p'] e]| |]]|destruct (sk_fetch E r h p len off) as [h1 [[[n p'] e]| |]]]; done.
Qed.
Lemma k_ReadAt k h i c err off r len cnt p o :
  kopen k h i c err off r len cnt ->
  exec E fuel h (Call i (ReadAt p o)) =
  if o <? 0 then (h, ORet (RRead 0 p (Some (ReadAtNegative o))))
  else match kfetch k r h p len (Z.min o len) with
       | (h1, ORet (n, p', e)) => (h1, ORet (RRead n p' e))
       | (h1, OPanic e) => (h1, OPanic e)
       | (h1, OSpin) => (h1, OSpin)
       end.
Proof.
  intros Ho. pose proof Ho as [_ _ Hoff _].
  kind Ho; rewrite run_rread; [rewrite (run_ra_ReadAt _ _ _ _ _ _ _ _ _ Ho')|rewrite (run_sk_ReadAt _ _ _ _ _ _ _ _ _ Ho')]; cbn [rc_length sc_length];
    (gif; [done|]); unfold ra_clamp, sk_clamp; replace (if o >? len then len else o) with (Z.min o len) by (gif; lia); done.
Qed.
Lemma k_Seek k h i c err off r len cnt o wh :
  kopen k h i c err off r len cnt -> in_i64 o ->
  exec E fuel h (Call i (Seek o wh)) =
  let '(n, e) := seek_to len off o wh in
  (match e with None => set_b h (<[i := kbody k c None n]> (h_b h)) | Some _ => h end, ORet (RSeek n e)).
Proof.
  intros Ho Hin. kind Ho; rewrite run_rseek; [rewrite (run_ra_Seek _ _ _ _ _ _ _ _ _ Ho' Hin)|rewrite (run_sk_Seek _ _ _ _ _ _ _ _ _ Ho' Hin)];
    cbn [rc_length sc_length rb_offset sb_offset]; destruct (seek_to len off o wh) as [n e]; done.
Qed.
Lemma k_Unwrap k h i c err off r len cnt :
  kopen k h i c err off r len cnt -> exec E fuel h (Call i Unwrap) = (h, ORet (RReader (Some r))).
Proof.
  intros Ho. kind Ho; rewrite run_rreader; [rewrite (run_ra_Unwrap _ _ _ _ _ _ _ Ho')|rewrite (run_sk_Unwrap _ _ _ _ _ _ _ Ho')]; done.
Qed.
Lemma k_WriteTo k h i c err off r len cnt x :
  kopen k h i c err off r len cnt -> exec E fuel h (Call i (WriteTo x)) = (h, ORet RNoMethod).
Proof. intros Ho. kind Ho; done. Qed.
Lemma k_Copy k h i c err off r len cnt :
  kopen k h i c err off r len cnt ->
  exec E fuel h (Call i Copy) =
  (set_c (set_b h (h_b h ++ [kbody k c err off])) (<[c := kcommon k r len (wrap32 (cnt + 1))]> (h_c h)), ORet (RBody (length (h_b h)) None)).
Proof.
  intros Ho. kind Ho; rewrite run_rbody; [rewrite (run_ra_Copy _ _ _ _ _ _ _ Ho')|rewrite (run_sk_Copy _ _ _ _ _ _ _ Ho')]; done.
Qed.
Lemma k_Close k h i c err off r len cnt h' o :
  kopen k h i c err off r len cnt ->
  exec E fuel h (Call i Close) = (h', o) ->
  exists e, o = ORet (RErr e) /\ h_b h' = <[i := kclosed k]> (h_b h) /\
    (wrap32 (cnt - 1) > 0 -> h_c h' !! c = Some (kcommon k r len (wrap32 (cnt - 1)))).
Proof.
  intros Ho. assert (Hlt : (c < length (h_c h))%nat) by (eapply lookup_lt_Some; apply Ho).
  kind Ho; rewrite run_rerr; [rewrite (run_ra_Close _ _ _ _ _ _ _ Ho')|rewrite (run_sk_Close _ _ _ _ _ _ _ Ho')];
    cbv zeta; cbn [rc_refcnt sc_refcnt rc_length sc_length rc_r rc_at sc_s]; (gif; [|gif; [destruct (ev_close E (h_w h) r)|]]); intros [= <- <-]; eexists;
    (split; [done|]); (split; [done|]); intros Hw; try lia; cbn; by rewrite list_lookup_insert.
Qed.

(** ** A Reader that is not closed stays usable *)
Lemma run_live r live {A} (m : prog A) : until_closed E r live -> forall h h' o,
  run E h m = (h', o) -> live (h_w h) ->
  exists evs, h_log h' = h_log h ++ evs /\ (Forall not_close (calls_on r evs) -> live (h_w h')).
Proof.
  intros Huc. induction m as [a|ex| |X a k IH]; intros h h' o; cbn; try (intros [= <- _] Hl; exists []; by rewrite app_nil_r).
  destruct (act_step E h a) as [[h1 x]|] eqn:Ha; [|intros [= <- _] Hl; exists []; by rewrite app_nil_r].
  intros Hr Hl.
  assert (Hst : exists evs, h_log h1 = h_log h ++ evs /\ (Forall not_close (calls_on r evs) -> live (h_w h1))).
  { clear IH Hr. destruct a; cbn in Ha; try (injection Ha as <- _; exists []; by rewrite app_nil_r).
    - destruct (h_b h !! i); [|done]. injection Ha as <- _. exists []; by rewrite app_nil_r.
    - destruct (h_b h !! i); [|done]. injection Ha as <- _. exists []; by rewrite app_nil_r.
    - destruct (h_c h !! c); [|done]. injection Ha as <- _. exists []; by rewrite app_nil_r.
    - destruct (h_c h !! c); [|done]. injection Ha as <- _. exists []; by rewrite app_nil_r.
    - pose proof (uc_read _ _ _ Huc (h_w h) r0 p Hl). destruct (ev_read E (h_w h) r0 p) as [w' [[n q] err]]. injection Ha as <- _. eexists. by split.
    - pose proof (uc_readat _ _ _ Huc (h_w h) r0 p off Hl). destruct (ev_readat E (h_w h) r0 p off) as [w' [[n q] err]]. injection Ha as <- _. eexists. by split.
    - pose proof (uc_seek _ _ _ Huc (h_w h) r0 off whence Hl). destruct (ev_seek E (h_w h) r0 off whence) as [w' [n err]]. injection Ha as <- _. eexists. by split.
    - destruct (decide (r0 = r)) as [->|Hne].
      + destruct (ev_close E (h_w h) r) as [w' err]. injection Ha as <- _. eexists. split; [done|].
        unfold calls_on. rewrite filter_cons, decide_True by done. intros Hf. by apply Forall_cons in Hf as [[] _].
      + pose proof (uc_close _ _ _ Huc (h_w h) r0 Hne Hl). destruct (ev_close E (h_w h) r0) as [w' err]. injection Ha as <- _. eexists. by split.
    - pose proof (uc_stat _ _ _ Huc (h_w h) r0 Hl). destruct (ev_stat E (h_w h) r0) as [w' [n err]]. injection Ha as <- _. eexists. by split.
    - pose proof (uc_write _ _ _ Huc (h_w h) w p Hl). destruct (ev_write E (h_w h) w p) as [w' y]. injection Ha as <- _. eexists. by split. }
  destruct Hst as (evs1 & H1 & H2).
  assert (Hsp : exists evs2, h_log h' = h_log h1 ++ evs2) by (eapply run_log; exact Hr).
  destruct Hsp as (evs2 & H3). exists (evs1 ++ evs2). rewrite H3, H1, app_assoc. split; [done|].
  rewrite calls_on_app. intros Hf. apply Forall_app in Hf as [Hf1 Hf2].
  destruct (IH x h1 h' o Hr (H2 Hf1)) as (evs3 & H4 & H5). rewrite H3 in H4. apply app_inv_head in H4 as ->. auto.
Qed.

(** ** Reading from a faithful Reader *)
Section Honest.
Context (k : skind) (r : rid) (live : W -> Prop) (d : bytes) (early : bool) (D : nat).
Hypothesis Hserve : match k with KAt => serves_at E r live d early | KSeek => serves_seek E r live d early end.
Hypothesis HD : (D <= length d)%nat.
Let dd := take D d.
Let F := first_bytes r early (Z.of_nat D) d.

Lemma dd_len : length dd = D.
Proof. apply take_length_le. exact HD. Qed.

Lemma good_inside off px n q err :
  (off < D)%nat -> (length px <= D - off)%nat -> good_read d early off px n q err ->
  n = zlen px /\ take (length px) (fit px q) = take (length px) (drop off dd) /\
  (err = None \/ early = true /\ length px = (D - off)%nat /\ err = Some EOF).
Proof.
  intros Hoff Hpx (k0 & -> & (Hk & H1 & H2 & H3) & Hq).
  assert (k0 = length px) as -> by lia. split; [done|]. split.
  - assert (Hlq : (length px <= length q)%nat).
    { apply (f_equal length) in Hq. rewrite !take_length, drop_length in Hq. lia. }
    unfold fit. rewrite take_take, Nat.min_id. rewrite take_app_le by done. rewrite Hq. unfold dd. rewrite skipn_firstn_comm, take_take.
    f_equal. lia.
  - destruct (decide (length px < length d - off)%nat) as [Hlt|Hge]; [left; auto|].
    destruct (H3 ltac:(lia)) as [->|(-> & _ & ->)]; [by left|right]. split; [done|]. split; [lia|done].
Qed.

Lemma krd_good h off px :
  live (h_w h) -> (off < D)%nat -> (length px <= D - off)%nat ->
  exists h1 err, krd k r h px (Z.of_nat off) = (h1, ORet (zlen px, take (length px) (drop off dd), err)) /\
    h_b h1 = h_b h /\ h_c h1 = h_c h /\
    (err = None \/ early = true /\ length px = (D - off)%nat /\ err = Some EOF).
Proof.
  intros Hl Hoff Hpx.
  assert (Hfit : forall q : bytes, take (length px) (fit px q) = fit px q) by (intros; apply take_ge; rewrite fit_length; lia).
  pose proof (zlen_nonneg px).
  pose proof Hserve as Hs. revert Hs. unfold krd. generalize k. intros []; intros [_ Hrd].
  - unfold ra_rd. destruct (ev_readat E (h_w h) r px (Z.of_nat off)) as [w [[n q] e]] eqn:Hr.
    assert (Hg : good_read d early off px n q e) by (rewrite <- (Nat2Z.id off); eapply (Hrd (h_w h)); [done|unfold zlen; lia|exact Hr]).
    destruct (good_inside _ _ _ _ _ Hoff Hpx Hg) as (-> & Hq & He).
    replace ((0 <=? zlen px) && (zlen px <=? zlen px)) with true by lia. rewrite Hfit in Hq. rewrite Hq. eexists _, _. done.
  - unfold sk_rd. destruct (Hrd (h_w h) (Z.of_nat off) Hl ltac:(unfold zlen; lia)) as (w1 & n1 & -> & Hrd').
    destruct (ev_read E w1 r px) as [w [[n q] e]] eqn:Hr. specialize (Hrd' _ _ _ _ _ Hr). rewrite Nat2Z.id in Hrd'.
    destruct (good_inside _ _ _ _ _ Hoff Hpx Hrd') as (-> & Hq & He).
    replace ((0 <=? zlen px) && (zlen px <=? zlen px)) with true by lia. rewrite Hfit in Hq. rewrite Hq. eexists _, _. done.
Qed.

Lemma kfetch_good h p off :
  live (h_w h) -> (off <= D)%nat ->
  exists h1 n err, kfetch k r h p (Z.of_nat D) (Z.of_nat off) = (h1, ORet (Z.of_nat n, filled dd off n p, err)) /\
    h_b h1 = h_b h /\ h_c h1 = h_c h /\ read_at dd early off p n err.
Proof.
  intros Hl Hoff. rewrite kfetch_eq. cbv zeta. unfold read_at. rewrite dd_len.
  assert (Hx : (if zlen p >? Z.of_nat D - Z.of_nat off then Z.of_nat D - Z.of_nat off else zlen p) = Z.of_nat (length p `min` (D - off))).
  { unfold zlen. gif; lia. }
  rewrite Hx. set (n := (length p `min` (D - off))%nat). rewrite Nat2Z.id.
  destruct (Z.of_nat D - Z.of_nat off >? 0) eqn:Hav.
  - assert (Hlen : length (take n p) = n) by (rewrite take_length; lia).
    destruct (krd_good h off (take n p)) as (h1 & err & Hk & Hb & Hc & He); [done|lia|lia|]. unfold zlen in Hk at 1. rewrite !Hlen in Hk. rewrite Hk.
    eexists _, n, _. split; [reflexivity|]. split; [done|]. split; [done|]. split; [done|].
    rewrite Hlen in He. unfold zlen.
    destruct He as [->|(-> & Hn & ->)].
    + split; [intros; gif; [lia|done]|]. split; [intros; gif; [done|lia]|]. intros. left. gif; [lia|done].
    + split; [intros; lia|]. split; [done|]. intros. right. split; [done|]. split; [lia|done].
  - assert (off = D) as -> by lia. assert (n = 0%nat) as -> by lia.
    eexists _, 0%nat, _. split; [unfold filled; reflexivity|]. split; [done|]. split; [done|]. split; [lia|]. unfold zlen.
    split; [intros; lia|]. split; [intros; gif; [done|lia]|]. intros. left. gif; [lia|done].
Qed.

Record src_inv (c : nat) (t : table) h : Prop := {
  sr_own : own r c (open_table t) h;
  sr_at : forall i pos e, t !! i = Some (At pos e) -> h_b h !! i = Some (kbody k c (if e then Some EOF else None) (Z.of_nat pos)) /\ (pos <= D)%nat;
  sr_shut : forall i, t !! i = Some Shut -> h_b h !! i = Some (kclosed k);
  sr_cm : ~ all_closed (open_table t) -> exists cnt, h_c h !! c = Some (kcommon k r (Z.of_nat D) cnt);
  sr_live : ~ all_closed (open_table t) -> live (h_w h);
  sr_max : Z.of_nat D <= max_i64
}.

Lemma live_exec h cmd h' o evs :
  exec E fuel h cmd = (h', o) -> live (h_w h) -> h_log h' = h_log h ++ evs -> Forall not_close (calls_on r evs) -> live (h_w h').
Proof.
  intros Hex Hl Hlog Hf.
  assert (Huc : until_closed E r live) by (pose proof Hserve as Hs; revert Hs; generalize k; intros []; by intros [? _]).
  destruct (run_live r live _ Huc _ _ _ Hex Hl) as (evs' & H1 & H2). rewrite Hlog in H1. apply app_inv_head in H1 as ->. auto.
Qed.

Lemma open_insert t i st : open_table (<[i := st]> t) = <[i := is_open st]> (open_table t).
Proof. unfold open_table. by rewrite fmap_insert. Qed.
Lemma shut_len len pos off wh n e : 0 <= len -> seek_to len pos off wh = (n, e) -> e = None -> 0 <= n <= len.
Proof. unfold seek_to. intros Hl. repeat gif; intros [= <- <-] He; try discriminate He; lia. Qed.

Lemma src_step c t h cmd h' o :
  go_env E -> src_inv c t h -> go_cmd cmd -> ~ wraps r cmd -> feasible h' ->
  exec E fuel h cmd = (h', o) ->
  match cmd with
  | Call i f =>
      match t !! i with
      | Some _ => exists x t', o = ORet x /\ fam_step F t i f t' x /\ src_inv c t' h'
      | None => src_inv c t h'
      end
  | _ => src_inv c t h'
  end.
Proof.
  intros Hge Hsi Hgo Hnw Hfe Hex. pose proof Hsi as [Hown Hat Hsh Hcm Hlive Hmax].
  pose proof (own_step E fuel r c (open_table t) h cmd h' o Hge Hown Hgo Hnw Hfe Hex) as [Hown' (evs & Hlog & Hevs)].
  assert (Hf : feasible h) by (eapply exec_feasible; [exact Hex|done]).
  assert (Hshk : shut (kclosed k) = true) by (by destruct k).
  assert (Hsh' : forall i, t !! i = Some Shut -> h_b h' !! i = Some (kclosed k)) by (intros i Hi; eapply shut_stays; eauto).
  assert (Hother : (forall i f, cmd = Call i f -> open_table t !! i <> Some true) -> src_inv c t h').
  { intros Hn. destruct (own_frame E fuel r c _ h cmd h' o Hge Hown Hgo Hnw Hfe Hn Hex) as (Hb & Hc & Htr & evs' & Hlog' & Hnone).
    rewrite Htr in Hown'. constructor; try done.
    - intros i pos e Hi. rewrite Hb by (apply open_lookup; eauto). by apply Hat.
    - intros Hna. rewrite Hc. by apply Hcm.
    - intros Hna. eapply live_exec; [done|by apply Hlive|exact Hlog'|]. rewrite Hnone. constructor. }
  destruct cmd as [i f| | | | | | |]; try (apply Hother; by intros).
  destruct (t !! i) as [[|pos e]|] eqn:Hi.
  3: { apply Hother. intros i' f' [= <- <-]. unfold open_table. by rewrite lookup_fmap, Hi. }
  { rewrite (shut_exec E fuel h i _ f (Hsh i Hi) Hshk) in Hex. injection Hex as <- <-.
    eexists _, t. split; [done|]. split; [|done].
    exists Shut, Shut. split; [done|]. split; [|by rewrite insert_id]. split; [done|].
    destruct f; cbn; try (by destruct k); done. }
  assert (Hop : open_table t !! i = Some true) by (apply open_lookup; eauto).
  assert (Hna : ~ all_closed (open_table t)) by (intros Ha; by apply (Ha i)).
  destruct (Hcm Hna) as [cnt Hc]. destruct (Hat i pos e Hi) as [Hb Hpos]. specialize (Hlive Hna).
  assert (Ho : kopen k h i c (if e then Some EOF else None) (Z.of_nat pos) r (Z.of_nat D) cnt) by (constructor; try done; lia).
  assert (Hltb : (i < length (h_b h))%nat) by (by eapply lookup_lt_Some).
  assert (Hltc : (c < length (h_c h))%nat) by (by eapply lookup_lt_Some).
  assert (HlenF : fam_data F = dd) by (unfold F, first_bytes, dd; cbn; by rewrite Nat2Z.id).
  (* calls that leave the handle open *)
  assert (Hkeep : forall st x, is_open st = true -> o = ORet x -> track (open_table t) (Call i f) o = open_table t ->
    ideal F (At pos e) f st x -> (forall j y, f = Copy -> x = RBody j y -> False) ->
    h_b h' = <[i := match st with At pos' e' => kbody k c (if e' then Some EOF else None) (Z.of_nat pos') | Shut => kclosed k end]> (h_b h) ->
    h_c h' = h_c h -> (forall pos' e', st = At pos' e' -> (pos' <= D)%nat) ->
    exists x t', o = ORet x /\ fam_step F t i f t' x /\ src_inv c t' h').
  { intros st x Hst -> Htr Hid Hnc Hb' Hc' Hle. exists x, (<[i := st]> t). split; [done|].
    rewrite Htr in Hown', Hevs.
    assert (Hot : open_table (<[i := st]> t) = open_table t) by (rewrite open_insert, Hst; by apply insert_id).
    split.
    { exists (At pos e), st. split; [done|]. split; [done|]. destruct f; try done. destruct x; try done. exfalso. by eapply Hnc. }
    constructor; rewrite ?Hot; try done.
    - intros j pos' e' Hj. rewrite Hb'. destruct (decide (j = i)) as [->|Hne].
      + rewrite lookup_insert in Hj. injection Hj as ->. rewrite list_lookup_insert by done. split; [done|]. by eapply Hle.
      + rewrite lookup_insert_ne in Hj by done. rewrite list_lookup_insert_ne by done. by apply Hat.
    - intros j Hj. destruct (decide (j = i)) as [->|Hne]; [rewrite lookup_insert in Hj; by injection Hj as ->|].
      rewrite lookup_insert_ne in Hj by done. by apply Hsh'.
    - intros _. rewrite Hc'. eauto.
    - intros _. eapply live_exec; try done. by apply Hevs. }
  destruct f as [|p| |off wh|p off|x| |].
  - rewrite (k_BytesRemaining _ _ _ _ _ _ _ _ _ Ho) in Hex. injection Hex as <- <-.
    eapply (Hkeep (At pos e)); try done.
    + split; [done|]. by rewrite HlenF, dd_len.
    + by rewrite list_insert_id.
    + by intros pos' e' [= <- <-].
  - rewrite (k_Read _ _ _ _ _ _ _ _ _ _ Ho) in Hex. destruct e.
    + injection Hex as <- <-. eapply (Hkeep (At pos true)); try done.
      * by rewrite list_insert_id.
      * by intros pos' e' [= <- <-].
    + destruct (kfetch_good h p pos Hlive Hpos) as (h1 & n & err & Hk & Hb1 & Hc1 & Hra). rewrite Hk in Hex. cbv zeta in Hex.
      assert (Herr : err = None \/ err = Some EOF /\ (pos + n = D)%nat).
      { destruct Hra as (H1 & H2 & H3 & H4). rewrite dd_len in *.
        destruct (decide (length p < D - pos)%nat); [left; auto|]. destruct (decide (D - pos < length p)%nat); [right; split; [auto|lia]|].
        destruct (H4 ltac:(lia)) as [->|(_ & _ & ->)]; [by left|]. right. split; [done|lia]. }
      assert (Hle : (pos + n <= D)%nat) by (destruct Hra as (-> & _); rewrite dd_len; lia).
      assert (Hh' : h' = set_b h1 (<[i := kbody k c err (Z.of_nat pos + Z.of_nat n)]> (h_b h1)) /\ o = ORet (RRead (Z.of_nat n) (filled dd pos n p) err)).
      { destruct Herr as [->|[-> Hpn]]; [|replace (_ <? _) with false in Hex by lia]; by injection Hex as <- <-. }
      destruct Hh' as [-> ->].
      eapply (Hkeep (At (pos + n) (match err with Some _ => true | None => false end))); try done.
      * exists n, err. rewrite HlenF. done.
      * cbn. rewrite Hb1, Nat2Z.inj_add. destruct Herr as [->|[-> _]]; done.
      * by intros pos' e' [= <- <-].
  - destruct (k_Close _ _ _ _ _ _ _ _ _ _ _ Ho Hex) as (err & -> & Hb' & Hc').
    exists (RErr err), (<[i := Shut]> t). split; [done|]. cbn [track] in Hown', Hevs. rewrite Hop in Hown', Hevs.
    assert (Hot : open_table (<[i := Shut]> t) = <[i := false]> (open_table t)) by apply open_insert.
    split.
    { exists (At pos e), Shut. split; [done|]. split; [|done]. split; [done|]. exists err. done. }
    constructor; rewrite ?Hot; try done.
    + intros j pos' e' Hj. rewrite Hb'. destruct (decide (j = i)) as [->|Hne]; [by rewrite lookup_insert in Hj|].
      rewrite lookup_insert_ne in Hj by done. rewrite list_lookup_insert_ne by done. by apply Hat.
    + intros j Hj. rewrite Hb'. destruct (decide (j = i)) as [->|Hne]; [by rewrite list_lookup_insert|].
      rewrite lookup_insert_ne in Hj by done. rewrite list_lookup_insert_ne by done. by apply Hsh.
    + intros Hna'. exists (wrap32 (cnt - 1)). apply Hc'.
      assert (Hr' : reader_at h' c = Some r) by by apply (ow_rd _ _ _ _ Hown').
      assert (Hcnt : cnt = zlen (refs (h_b h) c)).
      { pose proof (wf_c _ (ow_wf _ _ _ _ Hown) _ _ Hc) as Hw. clear -Hw. destruct k; cbn in Hw; apply Hw. }
      assert (Hbc : body_common (kbody k c (if e then Some EOF else None) (Z.of_nat pos)) = Some c) by (by destruct k).
      assert (Hdel : zlen (refs (h_b h') c) = zlen (refs (h_b h) c) - 1).
      { rewrite Hb'. eapply zlen_refs_del; [done|done|by destruct k]. }
      assert (Hne : refs (h_b h') c <> []) by (rewrite <- (own_refs_nil _ _ _ _ Hown'); done).
      pose proof (zlen_refs_le (h_b h) c). destruct Hf as [Hf _].
      assert (zlen (refs (h_b h') c) <> 0) by (unfold zlen; destruct (refs (h_b h') c); [done|cbn; lia]).
      pose proof (zlen_nonneg (refs (h_b h') c)). rewrite wrap32_id by lia. lia.
    + intros Hna'. eapply live_exec; try done. by apply Hevs.
  - cbn in Hgo. rewrite (k_Seek _ _ _ _ _ _ _ _ _ _ _ Ho) in Hex by apply Hgo.
    destruct (seek_to (Z.of_nat D) (Z.of_nat pos) off wh) as [n err] eqn:Hs. injection Hex as <- <-.
    pose proof (shut_len _ _ _ _ _ _ (Nat2Z.is_nonneg D) Hs) as Hn.
    eapply (Hkeep (match err with None => At (Z.to_nat n) false | Some _ => At pos e end)); try done.
    + by destruct err.
    + unfold ideal. rewrite HlenF, dd_len, Hs. by destruct err.
    + destruct err; cbn; [by rewrite list_insert_id|]. rewrite Z2Nat.id by (by apply Hn). done.
    + by destruct err.
    + destruct err; intros pos' e' [= <- <-]; [done|]. specialize (Hn eq_refl). lia.
  - rewrite (k_ReadAt _ _ _ _ _ _ _ _ _ _ _ Ho) in Hex. destruct (off <? 0) eqn:Hneg.
    + injection Hex as <- <-. eapply (Hkeep (At pos e)); try done.
      * cbn. rewrite Hneg. done.
      * by rewrite list_insert_id.
      * by intros pos' e' [= <- <-].
    + replace (Z.min off (Z.of_nat D)) with (Z.of_nat (Z.to_nat (Z.min off (Z.of_nat D)))) in Hex by lia.
      destruct (kfetch_good h p (Z.to_nat (Z.min off (Z.of_nat D))) Hlive ltac:(lia)) as (h1 & n & err & Hk & Hb1 & Hc1 & Hra).
      rewrite Hk in Hex. injection Hex as <- <-. eapply (Hkeep (At pos e)); try done.
      * unfold ideal. rewrite HlenF, Hneg, dd_len. cbn [andb]. split; [done|]. exists n, err. done.
      * by rewrite Hb1, list_insert_id.
      * by intros pos' e' [= <- <-].
  - rewrite (k_WriteTo _ _ _ _ _ _ _ _ _ _ Ho) in Hex. injection Hex as <- <-. eapply (Hkeep (At pos e)); try done.
    + by rewrite list_insert_id.
    + by intros pos' e' [= <- <-].
  - rewrite (k_Copy _ _ _ _ _ _ _ _ _ Ho) in Hex. injection Hex as <- <-.
    cbn [track] in Hown', Hevs. rewrite Hop in Hown', Hevs.
    pose proof (own_fresh _ _ _ _ Hown) as Hfr.
    assert (Hfr' : t !! length (h_b h) = None) by (unfold open_table in Hfr; rewrite lookup_fmap in Hfr; by destruct (t !! length (h_b h))).
    exists (RBody (length (h_b h)) None), (<[length (h_b h) := At pos e]> t). split; [done|]. split.
    { exists (At pos e), (At pos e). split; [done|]. split; [|done]. split; [done|]. by eexists. }
    assert (Hot : open_table (<[length (h_b h) := At pos e]> t) = <[length (h_b h) := true]> (open_table t)) by apply open_insert.
    constructor; rewrite ?Hot; try done; cbn [set_c set_b h_b h_c].
    + intros j pos' e' Hj. destruct (decide (j = length (h_b h))) as [->|Hne].
      * rewrite lookup_insert in Hj. injection Hj as <- <-. rewrite lookup_app_r, Nat.sub_diag by lia. done.
      * rewrite lookup_insert_ne in Hj by done. destruct (Hat j pos' e' Hj) as [H1 H2]. split; [|done].
        rewrite lookup_app_l; [done|]. by eapply lookup_lt_Some.
    + intros j Hj. destruct (decide (j = length (h_b h))) as [->|Hne]; [by rewrite lookup_insert in Hj|].
      rewrite lookup_insert_ne in Hj by done. by apply Hsh'.
    + intros _. rewrite list_lookup_insert by done. eauto.
  - rewrite (k_Unwrap _ _ _ _ _ _ _ _ _ Ho) in Hex. injection Hex as <- <-. eapply (Hkeep (At pos e)); try done.
    + by rewrite list_insert_id.
    + by intros pos' e' [= <- <-].
Qed.

Lemma src_trace c cs : forall t h h' os,
  go_env E -> src_inv c t h -> Forall go_cmd cs -> Forall (fun c => ~ wraps r c) cs -> feasible h' ->
  history E fuel h cs = (h', os) -> fam_trace F t cs os.
Proof.
  induction cs as [|cmd cs IH]; intros t h h' os Hge Hsi Hgo Hnw Hf H; cbn in H; [by injection H as <- <-|].
  apply Forall_cons in Hgo as [Hg1 Hg2]. apply Forall_cons in Hnw as [Hn1 Hn2].
  destruct (exec E fuel h cmd) as [h1 o] eqn:Hex.
  assert (Hf1 : feasible h1).
  { destruct o; [destruct (history E fuel h1 cs) as [h2 os'] eqn:Hh..|]; injection H as <- <-; [by eapply history_feasible..|done]. }
  pose proof (src_step c t h cmd h1 o Hge Hsi Hg1 Hn1 Hf1 Hex) as Hst.
  assert (Hgen : forall os', os = o :: os' -> (forall t', src_inv c t' h1 -> fam_trace F t' cs os') -> fam_trace F t (cmd :: cs) os).
  { intros os' -> Hrest. destruct cmd as [i f| | | | | | |]; try (by apply Hrest). cbn [fam_trace].
    destruct (t !! i); [|by apply Hrest]. destruct Hst as (x & t' & -> & Hfs & Hsi'). exists t'. auto. }
  destruct o.
  - destruct (history E fuel h1 cs) as [h2 os'] eqn:Hh. injection H as <- <-. eapply Hgen; [done|]. intros t' Ht'. by eapply (IH t' h1 h2).
  - destruct (history E fuel h1 cs) as [h2 os'] eqn:Hh. injection H as <- <-. eapply Hgen; [done|]. intros t' Ht'. by eapply (IH t' h1 h2).
  - injection H as <- <-. eapply (Hgen []); [done|]. intros t' _. by destruct cs as [|[] ?].
Qed.

Lemma history_live cs : until_closed E r live -> forall h h' os,
  history E fuel h cs = (h', os) -> live (h_w h) ->
  exists evs, h_log h' = h_log h ++ evs /\ (Forall not_close (calls_on r evs) -> live (h_w h')).
Proof.
  intros Huc. induction cs as [|cmd cs IH]; intros h h' os H Hl; cbn in H; [injection H as <- <-; exists []; by rewrite app_nil_r|].
  destruct (exec E fuel h cmd) as [h1 o] eqn:Hex. destruct (run_live r live _ Huc _ _ _ Hex Hl) as (evs1 & H1 & H2).
  assert (Hgen : forall h2 os', history E fuel h1 cs = (h2, os') -> h' = h2 ->
    exists evs, h_log h' = h_log h ++ evs /\ (Forall not_close (calls_on r evs) -> live (h_w h'))).
  { intros h2 os' Hh ->.
    assert (exists evs2, h_log h2 = h_log h1 ++ evs2) as [evs2 H3].
    { clear -Hh. revert h1 h2 os' Hh. induction cs as [|c cs IH]; intros h h' os H; cbn in H; [injection H as <- <-; exists []; by rewrite app_nil_r|].
      destruct (exec E fuel h c) as [h1 o] eqn:Hex. apply exec_log in Hex as [X1 HX1].
      destruct o; [destruct (history E fuel h1 cs) as [h2 os'] eqn:Hh..|]; injection H as <- <-; try (by exists X1);
        apply IH in Hh as [X2 HX2]; exists (X1 ++ X2); by rewrite HX2, HX1, app_assoc. }
    exists (evs1 ++ evs2). rewrite H3, H1, app_assoc. split; [done|]. rewrite calls_on_app. intros Hf. apply Forall_app in Hf as [Hf1 Hf2].
    destruct (IH _ _ _ Hh (H2 Hf1)) as (evs3 & H4 & H5). rewrite H3 in H4. apply app_inv_head in H4 as ->. auto. }
  destruct o; [destruct (history E fuel h1 cs) as [h2 os'] eqn:Hh; injection H as <- <-; by eapply Hgen..|]. injection H as <- <-. eauto.
Qed.

Lemma src_new h cmd h1 i :
  go_env E -> unowned r h -> go_cmd cmd -> wraps r cmd -> feasible h1 ->
  exec E fuel h cmd = (h1, ORet (RBody i None)) -> announces E fuel h1 i (Z.of_nat D) ->
  match k with KAt => cp_readerat (ev_caps E r) = true | KSeek => cp_readerat (ev_caps E r) = false /\ cp_seeker (ev_caps E r) = true end ->
  live (h_w h) ->
  src_inv (length (h_c h)) {[ i := At 0 false ]} h1.
Proof.
  intros Hge Hu Hgo Hw Hfe Hex Hann Hkind Hl.
  destruct (own_new E fuel r h cmd h1 i Hge Hu Hgo Hw Hfe Hex) as (-> & Hown & Hnc).
  assert (Hl1 : live (h_w h1)).
  { destruct (exec_log E _ _ _ _ _ Hex) as [evs Hlog]. eapply live_exec; [done|done|exact Hlog|].
    rewrite Hlog, calls_on_app in Hnc. by apply Forall_app in Hnc as [_ ?]. }
  assert (exists len, exec E fuel h cmd = run E h (rfrom (FromReaderAndLength r len))) as [len Hlen].
  { destruct Hw as [->|[n ->]]; eexists; reflexivity. }
  rewrite Hlen in Hex. unfold rfrom in Hex. rewrite run_bind, run_From in Hex.
  destruct (find_len E (h_w h) r len) as [[w evs] x] eqn:Hfl. destruct x as [l|e|]; cbn in Hex; try done.
  injection Hex as <-.
  assert (Hlb : forall x, (h_b h ++ [x]) !! length (h_b h) = Some x) by (intros; rewrite lookup_app_r, Nat.sub_diag by lia; done).
  assert (Hlc : forall x, (h_c h ++ [x]) !! length (h_c h) = Some x) by (intros; rewrite lookup_app_r, Nat.sub_diag by lia; done).
  assert (l = Z.of_nat D) as ->.
  { unfold announces, exec in Hann. cbn [cmd_prog set_b set_c h_b] in Hann. rewrite Hlb in Hann. unfold new_pair in Hann.
    destruct (cp_readerat (ev_caps E r)), (cp_seeker (ev_caps E r)), (l >=? 0) eqn:Hl0; cbn [andb orb] in Hann;
    cbn in Hann; rewrite Hlb in Hann; cbn in Hann; rewrite Hlc in Hann; cbn in Hann; revert Hann; repeat gif; cbn; intros [= Hann]; lia. }
  assert (Hnp : new_pair E (length (h_c h)) (length (h_b h)) r (Z.of_nat D) = (kbody k (length (h_c h)) None 0, kcommon k r (Z.of_nat D) 1)).
  { unfold new_pair. replace (Z.of_nat D >=? 0) with true by lia. rewrite !andb_true_r.
    revert Hkind. generalize k. intros []; [by intros ->|by intros [-> ->]]. }
  rewrite Hnp in *. cbn [fst snd] in *.
  constructor; cbn [set_b set_c h_log h_b h_c heap_wl] in *.
  - unfold open_table. by rewrite map_fmap_singleton.
  - intros j pos e Hj. apply lookup_singleton_Some in Hj as [<- [= <- <-]]. split; [apply Hlb|lia].
  - intros j Hj. by apply lookup_singleton_Some in Hj as [<- Hj].
  - intros _. exists 1. apply Hlc.
  - done.
  - pose proof (wf_c _ (ow_wf _ _ _ _ Hown) _ _ (Hlc _)) as Hwc. revert Hwc. generalize k. intros []; cbn; intros Hwc; lia.
Qed.
End Honest.

Lemma cursors k r live d early w h1 i cs h2 os D :
  match k with KAt => serves_at E r live d early | KSeek => serves_seek E r live d early end ->
  match k with KAt => cp_readerat (ev_caps E r) = true | KSeek => cp_readerat (ev_caps E r) = false /\ cp_seeker (ev_caps E r) = true end ->
  live w -> wrapped_once E fuel r w h1 i cs h2 os -> announces E fuel h1 i D -> 0 <= D <= zlen d ->
  fam_trace (first_bytes r early D d) {[ i := At 0 false ]} cs os.
Proof.
  intros Hs Hk Hl Hw Hann HD. unfold zlen in HD. assert (exists n, D = Z.of_nat n) as [n ->] by (exists (Z.to_nat D); lia).
  assert (Huc : until_closed E r live) by (destruct k; apply Hs).
  pose proof Hw as (Hge & cs0 & os0 & h0 & new & Hgo & Hnw & Hwr & H0 & H1 & H2 & Hf).
  apply Forall_app in Hgo as [Hgo0 Hgo]. apply Forall_cons in Hgo as [Hg1 Hg2]. apply Forall_app in Hnw as [Hnw0 Hnw].
  assert (Hf1 : feasible h1) by (by eapply history_feasible).
  assert (Hf0 : feasible h0) by (by eapply exec_feasible).
  assert (Hu : unowned r h0) by (eapply (unowned_history E fuel r cs0 (initial w)); try done; apply unowned_initial).
  assert (Hl0 : live (h_w h0)).
  { destruct (history_live r live cs0 Huc _ _ _ H0 Hl) as (evs & Hlog & Hli). apply Hli. cbn in Hlog. rewrite <- Hlog, (un_log _ _ Hu). constructor. }
  assert (Hsi : src_inv k r live n (length (h_c h0)) {[ i := At 0 false ]} h1) by (eapply (src_new k r live d early n); try done; lia).
  eapply (src_trace k r live d early n) with (h := h1) (h' := h2); try done; lia.
Qed.

Lemma cursors_at r live d early :
  serves_at E r live d early -> cp_readerat (ev_caps E r) = true -> forall w h1 i cs h2 os D,
  live w -> wrapped_once E fuel r w h1 i cs h2 os -> announces E fuel h1 i D -> 0 <= D <= zlen d ->
  fam_trace (first_bytes r early D d) {[ i := At 0 false ]} cs os.
Proof. intros. by eapply (cursors KAt). Qed.
Lemma cursors_seek r live d early :
  serves_seek E r live d early -> cp_readerat (ev_caps E r) = false -> cp_seeker (ev_caps E r) = true -> forall w h1 i cs h2 os D,
  live w -> wrapped_once E fuel r w h1 i cs h2 os -> announces E fuel h1 i D -> 0 <= D <= zlen d ->
  fam_trace (first_bytes r early D d) {[ i := At 0 false ]} cs os.
Proof. intros. by eapply (cursors KSeek). Qed.
End Source.

(** A source that delivers less than it is asked for. *)
Lemma short_reads :
  exists (W : Type) (E : env W) (fuel : nat) (r : rid) (live : W -> Prop) (d : bytes) (w : W) h1 i cs h2 os (D : Z),
  fair_seek E r live d /\ cp_readerat (ev_caps E r) = false /\ cp_seeker (ev_caps E r) = true /\
  live w /\ wrapped_once E fuel r w h1 i cs h2 os /\ announces E fuel h1 i D /\ D = zlen d /\
  cs = [Call i Copy; Call i (Read (buf 20)); Call 2 BytesRemaining] /\
  os = [ORet (RBody 2 None); ORet (RRead 4 (bs "hell" ++ buf 16) (Some EOF)); ORet (RInt 4)] /\
  ~ fam_trace (first_bytes r false D d) {[ i := At 0 false ]} cs os /\ ~ fam_trace (first_bytes r true D d) {[ i := At 0 false ]} cs os.
Proof.
  exists _, (archive (bs "hello world") seekable false (Some 4%nat)), 0%nat, 0%nat, alive, (bs "hello world"), (false, 0%nat).
  eexists _, 1%nat, [Call 1 Copy; Call 1 (Read (buf 20)); Call 2 BytesRemaining], _, _, 11. split; [by apply archive_fair_seek|]. do 3 (split; [done|]). split.
  { split; [apply archive_go|]. exists [], []. eexists _, (NewReader 0).
    split; [repeat constructor; vm_compute; done|]. split; [repeat constructor; intros [|[? ?]]; congruence|]. split; [by left|].
    split; [vm_compute; reflexivity|]. split; [vm_compute; reflexivity|]. split; [vm_compute; reflexivity|]. split; vm_compute; done. }
  split; [vm_compute; reflexivity|]. split; [done|]. split; [reflexivity|]. split; [vm_compute; reflexivity|].
  cut (forall early, ~ fam_trace (first_bytes 0 early 11 (bs "hello world")) {[ 1%nat := At 0 false ]}
    [Call 1 Copy; Call 1 (Read (buf 20)); Call 2 BytesRemaining] [ORet (RBody 2 None); ORet (RRead 4 (bs "hell" ++ buf 16) (Some EOF)); ORet (RInt 4)]); [auto|].
  intros early H. cbn [fam_trace] in H. rewrite lookup_singleton in H. destruct H as (t & (st & st' & Hs & Hi & H1) & H2).
  rewrite lookup_singleton in Hs. injection Hs as <-. destruct H1 as [_ ->]. rewrite lookup_insert_ne, lookup_singleton in H2 by done.
  destruct H2 as (t & (st & st2 & Hs & Hi2 & _) & _). rewrite lookup_insert_ne, lookup_singleton in Hs by done. injection Hs as <-.
  destruct Hi2 as (k & err & (-> & _) & Hx & _). by injection Hx as Hx _.
Qed.
