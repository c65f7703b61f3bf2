(** * Readers that fail, or have fewer bytes than announced (proofs) *)
From stdpp Require Import gmap.
From Coq Require Import ZifyBool.
From Verif Require Export ShortSpec Source.

Definition is_there (st : hand) : bool := match st with Pos _ _ => true | Gone => false end.
Definition there (t : gmap nat hand) : handles := is_there <$> t.
Lemma there_insert t i st : there (<[i := st]> t) = <[i := is_there st]> (there t).
Proof. unfold there. by rewrite fmap_insert. Qed.
Lemma there_lookup t i pos e : t !! i = Some (Pos pos e) -> there t !! i = Some true.
Proof. intros Hi. unfold there. by rewrite lookup_fmap, Hi. Qed.

Section Short.
Context {W : Type} (E : env W) (fuel : nat).
Implicit Types h : heap W.

(** An open handle, perhaps beyond the length. *)
Record kloose (k : skind) h i c err off r len cnt : Prop := {
  kl_b : h_b h !! i = Some (kbody k c err off);
  kl_c : h_c h !! c = Some (kcommon k r len cnt);
  kl_off : 0 <= off <= max_i64;
  kl_len : 0 <= len <= max_i64
}.
Lemma kloose_ra h i c err off r len cnt :
  kloose KAt h i c err off r len cnt ->
  ra_open h i {| rb_common := Some c; rb_err := err; rb_offset := off; rb_closed := false |} c
    {| rc_r := Some r; rc_at := Some r; rc_length := len; rc_refcnt := cnt |} r.
Proof. intros [H1 H2 H3 H4]. by constructor. Qed.
Lemma kloose_sk h i c err off r len cnt :
  kloose KSeek h i c err off r len cnt ->
  sk_open h i {| sb_common := Some c; sb_err := err; sb_offset := off; sb_closed := false |} c
    {| sc_s := Some r; sc_length := len; sc_refcnt := cnt |} r.
Proof. intros [H1 H2 H3 H4]. by constructor. Qed.

Ltac kind Ho :=
  match type of Ho with kloose ?k ?h ?i ?c ?err ?off ?r ?len ?cnt =>
    unfold exec; cbn [cmd_prog]; rewrite (kl_b _ _ _ _ _ _ _ _ _ Ho);
    destruct k; cbn [kbody method]; [pose proof (kloose_ra _ _ _ _ _ _ _ _ Ho) as Ho'|pose proof (kloose_sk _ _ _ _ _ _ _ _ Ho) as Ho'] end.

Lemma l_BytesRemaining k h i c err off r len cnt :
  kloose k h i c err off r len cnt ->
  exists z, exec E fuel h (Call i BytesRemaining) = (h, ORet (RInt z)) /\ (off <= len -> z = len - off) /\ (len <= off -> z = 0 \/ z = len - off).
Proof.
  intros Ho. kind Ho; rewrite run_rint; [rewrite (run_ra_BytesRemaining _ _ _ _ _ _ _ Ho')|rewrite (run_sk_BytesRemaining _ _ _ _ _ _ _ Ho')]; cbn;
    eexists; (split; [done|]); lia.
Qed.
Lemma l_Read k h i c err off r len cnt p :
  kloose k h i c err off r len cnt ->
  exec E fuel h (Call i (Read p)) =
  match err with
  | Some e => (h, ORet (RRead 0 p (Some e)))
  | None =>
      match kfetch E k r h p len (Z.min off len) with
      | (h1, ORet (n, p', e)) =>
          let h2 := set_b h1 (<[i := kbody k c e (Z.min off len + n)]> (h_b h1)) in
          (match e with
           | Some _ => if Z.min off len + n <? len then set_c h2 (<[c := kcommon k r (Z.min off len + n) cnt]> (h_c h2)) else h2
           | None => h2
           end, ORet (RRead n p' e))
      | (h1, OPanic e) => (h1, OPanic e)
      | (h1, OSpin) => (h1, OSpin)
      end
  end.
Proof.
  intros Ho.
  kind Ho; rewrite run_rread; [rewrite (run_ra_Read _ _ _ _ _ _ _ _ Ho')|rewrite (run_sk_Read _ _ _ _ _ _ _ _ Ho')]; cbn [rb_err sb_err rb_offset sb_offset rc_length sc_length];
    (destruct err; [done|]); cbv zeta; unfold ra_clamp, sk_clamp; replace (if off >? len then len else off) with (Z.min off len) by (gif; lia);
    cbn [kfetch]; [destruct (ra_fetch E r h p len _) as [h1 [[[n p'] e]| |]]|destruct (sk_fetch E r h p len _) as [h1 [[[n p'] e]| |]]]; done.
Qed.
Lemma l_ReadAt k h i c err off r len cnt p o :
  kloose k h i c err off r len cnt ->
  exec E fuel h (Call i (ReadAt p o)) =
  if o <? 0 then (h, ORet (RRead 0 p (Some (ReadAtNegative o))))
  else match kfetch E k r h p len (Z.min o len) with
       | (h1, ORet (n, p', e)) => (h1, ORet (RRead n p' e))
       | (h1, OPanic e) => (h1, OPanic e)
       | (h1, OSpin) => (h1, OSpin)
       end.
Proof.
  intros Ho.
  kind Ho; rewrite run_rread; [rewrite (run_ra_ReadAt _ _ _ _ _ _ _ _ _ Ho')|rewrite (run_sk_ReadAt _ _ _ _ _ _ _ _ _ Ho')]; cbn [rc_length sc_length];
    (gif; [done|]); unfold ra_clamp, sk_clamp; replace (if o >? len then len else o) with (Z.min o len) by (gif; lia); done.
Qed.
Lemma l_Seek k h i c err off r len cnt o wh :
  kloose k h i c err off r len cnt -> in_i64 o ->
  exec E fuel h (Call i (Seek o wh)) =
  let '(n, e) := seek_to len off o wh in
  (match e with None => set_b h (<[i := kbody k c None n]> (h_b h)) | Some _ => h end, ORet (RSeek n e)).
Proof.
  intros Ho Hin. kind Ho; rewrite run_rseek; [rewrite (run_ra_Seek _ _ _ _ _ _ _ _ _ Ho' Hin)|rewrite (run_sk_Seek _ _ _ _ _ _ _ _ _ Ho' Hin)];
    cbn [rc_length sc_length rb_offset sb_offset]; destruct (seek_to len off o wh) as [n e]; done.
Qed.
Lemma l_Unwrap k h i c err off r len cnt :
  kloose k h i c err off r len cnt -> exec E fuel h (Call i Unwrap) = (h, ORet (RReader (Some r))).
Proof.
  intros Ho. kind Ho; rewrite run_rreader; [rewrite (run_ra_Unwrap _ _ _ _ _ _ _ Ho')|rewrite (run_sk_Unwrap _ _ _ _ _ _ _ Ho')]; done.
Qed.
Lemma l_WriteTo k h i c err off r len cnt x :
  kloose k h i c err off r len cnt -> exec E fuel h (Call i (WriteTo x)) = (h, ORet RNoMethod).
Proof. intros Ho. kind Ho; done. Qed.
Lemma l_Copy k h i c err off r len cnt :
  kloose k h i c err off r len cnt ->
  exec E fuel h (Call i Copy) =
  (set_c (set_b h (h_b h ++ [kbody k c err off])) (<[c := kcommon k r len (wrap32 (cnt + 1))]> (h_c h)), ORet (RBody (length (h_b h)) None)).
Proof.
  intros Ho. kind Ho; rewrite run_rbody; [rewrite (run_ra_Copy _ _ _ _ _ _ _ Ho')|rewrite (run_sk_Copy _ _ _ _ _ _ _ Ho')]; done.
Qed.
Lemma l_Close k h i c err off r len cnt h' o :
  kloose k h i c err off r len cnt ->
  exec E fuel h (Call i Close) = (h', o) ->
  exists e, o = ORet (RErr e) /\ h_b h' = <[i := kclosed k]> (h_b h) /\
    (wrap32 (cnt - 1) > 0 -> h_c h' !! c = Some (kcommon k r len (wrap32 (cnt - 1)))).
Proof.
  intros Ho. assert (Hlt : (c < length (h_c h))%nat) by (eapply lookup_lt_Some; apply Ho).
  kind Ho; rewrite run_rerr; [rewrite (run_ra_Close _ _ _ _ _ _ _ Ho')|rewrite (run_sk_Close _ _ _ _ _ _ _ Ho')];
    cbv zeta; cbn [rc_refcnt sc_refcnt rc_length sc_length rc_r rc_at sc_s]; (gif; [|gif; [destruct (ev_close E (h_w h) r)|]]); intros [= <- <-]; eexists;
    (split; [done|]); (split; [done|]); intros Hw; try lia; cbn; by rewrite list_lookup_insert.
Qed.

(** ** Any rule the Reader's answers obey *)
Section Rule.
Context (k : skind) (r : rid) (live : W -> Prop) (d : bytes).
Context (A : nat -> bytes -> nat -> option error -> Prop).
Hypothesis Huc : until_closed E r live.
Hypothesis Hrd : forall h off px, live (h_w h) -> Z.of_nat off <= max_i64 ->
  exists h1 n q e, krd E k r h px (Z.of_nat off) = (h1, ORet (Z.of_nat n, q, e)) /\ h_b h1 = h_b h /\ h_c h1 = h_c h /\
    (n <= length px)%nat /\ length q = length px /\ take n q = take n (drop off d) /\ A off px n e.

Definition obeys (L pos : nat) (p : bytes) (n : nat) (q : bytes) (err : option error) : Prop :=
  served d L pos p n q err /\
  ((pos < L)%nat -> exists e, A pos (take (L - pos) p) n e /\ err = match e with None => if (L - pos <? length p)%nat then Some EOF else None | Some e => Some e end).

Lemma kfetch_obeys h p L pos :
  live (h_w h) -> (pos <= L)%nat -> Z.of_nat L <= max_i64 ->
  exists h1 n q err, kfetch E k r h p (Z.of_nat L) (Z.of_nat pos) = (h1, ORet (Z.of_nat n, q, err)) /\
    h_b h1 = h_b h /\ h_c h1 = h_c h /\ obeys L pos p n q err.
Proof.
  intros Hl Hpos HL. rewrite kfetch_eq. cbv zeta. unfold obeys, served.
  assert (Hx : (if zlen p >? Z.of_nat L - Z.of_nat pos then Z.of_nat L - Z.of_nat pos else zlen p) = Z.of_nat (length p `min` (L - pos))).
  { unfold zlen. gif; lia. }
  rewrite Hx. set (ask := (length p `min` (L - pos))%nat). rewrite Nat2Z.id.
  assert (Hz : (zlen p >? Z.of_nat L - Z.of_nat pos) = (L - pos <? length p)%nat) by (unfold zlen; lia). rewrite Hz.
  destruct (Z.of_nat L - Z.of_nat pos >? 0) eqn:Hav.
  - assert (Hlen : length (take ask p) = ask) by (rewrite take_length; lia).
    destruct (Hrd h pos (take ask p)) as (h1 & n & q & e & Hk & Hb & Hc & Hn & Hq & Ht & HA); [done|lia|]. rewrite Hk, Hlen in *.
    eexists _, n, _, _. split; [reflexivity|]. split; [done|]. split; [done|]. split.
    + split; [done|]. split; [by rewrite take_app_le by lia|]. split; [rewrite app_length, drop_length; lia|].
      split; [rewrite <- Hq at 1; by rewrite drop_app|]. split.
      * intros Ha. destruct e; [done|]. destruct (L - pos <? length p)%nat eqn:Hc1; [done|lia].
      * lia.
    + intros _. exists e. split; [|done]. replace (take (L - pos) p) with (take ask p); [done|].
      unfold ask. destruct (decide (length p <= L - pos)%nat); [rewrite Nat.min_l, !take_ge by lia; done|by rewrite Nat.min_r by lia].
  - assert (pos = L) as -> by lia. assert (ask = 0%nat) as Ha by (unfold ask; lia). rewrite Ha.
    eexists _, 0%nat, _, _. split; [reflexivity|]. split; [done|]. split; [done|]. split; [|lia].
    split; [done|]. split; [done|]. split; [done|]. split; [done|]. rewrite Nat.sub_diag. split.
    + intros Hp. by replace (0 <? length p)%nat with true by lia.
    + intros _. by destruct p.
Qed.

Record rule_inv (c L : nat) (t : gmap nat hand) h : Prop := {
  ri_own : own r c (there t) h;
  ri_at : forall i pos e, t !! i = Some (Pos pos e) -> h_b h !! i = Some (kbody k c e (Z.of_nat pos)) /\ Z.of_nat pos <= max_i64;
  ri_shut : forall i, t !! i = Some Gone -> h_b h !! i = Some (kclosed k);
  ri_cm : ~ all_closed (there t) -> exists cnt, h_c h !! c = Some (kcommon k r (Z.of_nat L) cnt);
  ri_live : ~ all_closed (there t) -> live (h_w h);
  ri_max : Z.of_nat L <= max_i64
}.

Lemma live_exec2 h cmd h' o evs :
  exec E fuel h cmd = (h', o) -> live (h_w h) -> h_log h' = h_log h ++ evs -> Forall not_close (calls_on r evs) -> live (h_w h').
Proof.
  intros Hex Hl Hlog Hf.
  destruct (run_live E r live _ Huc _ _ _ Hex Hl) as (evs' & H1 & H2). rewrite Hlog in H1. apply app_inv_head in H1 as ->. auto.
Qed.

Lemma rule_step c L t h cmd h' o :
  go_env E -> rule_inv c L t h -> go_cmd cmd -> ~ wraps r cmd -> feasible h' ->
  exec E fuel h cmd = (h', o) ->
  match cmd with
  | Call i f =>
      match t !! i with
      | Some _ => exists x L' t', o = ORet x /\ shrink_step obeys r L t i f L' t' x /\ rule_inv c L' t' h'
      | None => rule_inv c L t h'
      end
  | _ => rule_inv c L t h'
  end.
Proof.
  intros Hge Hsi Hgo Hnw Hfe Hex. pose proof Hsi as [Hown Hat Hsh Hcm Hlive Hmax].
  pose proof (own_step E fuel r c (there t) h cmd h' o Hge Hown Hgo Hnw Hfe Hex) as [Hown' (evs & Hlog & Hevs)].
  assert (Hf : feasible h) by (eapply exec_feasible; [exact Hex|done]).
  assert (Hshk : shut (kclosed k) = true) by (by destruct k).
  assert (Hsh' : forall i, t !! i = Some Gone -> h_b h' !! i = Some (kclosed k)) by (intros i Hi; eapply shut_stays; eauto).
  assert (Hother : (forall i f, cmd = Call i f -> there t !! i <> Some true) -> rule_inv c L t h').
  { intros Hn. destruct (own_frame E fuel r c _ h cmd h' o Hge Hown Hgo Hnw Hfe Hn Hex) as (Hb & Hc & Htr & evs' & Hlog' & Hnone).
    rewrite Htr in Hown'. constructor; try done.
    - intros i pos e Hi. rewrite Hb by (by eapply there_lookup). by apply Hat.
    - intros Hna. rewrite Hc. by apply Hcm.
    - intros Hna. eapply live_exec2; [done|by apply Hlive|exact Hlog'|]. rewrite Hnone. constructor. }
  destruct cmd as [i f| | | | | | |]; try (apply Hother; by intros).
  destruct (t !! i) as [[|pos e]|] eqn:Hi.
  3: { apply Hother. intros i' f' [= <- <-]. unfold there. by rewrite lookup_fmap, Hi. }
  { rewrite (shut_exec E fuel h i _ f (Hsh i Hi) Hshk) in Hex. injection Hex as <- <-.
    eexists _, L, t. split; [done|]. split; [|done].
    exists Gone, Gone. split; [done|]. split; [|by rewrite insert_id]. split; [done|]. split; [done|].
    destruct f; cbn; try (by destruct k); done. }
  assert (Hop : there t !! i = Some true) by (by eapply there_lookup).
  assert (Hna : ~ all_closed (there t)) by (intros Ha; by apply (Ha i)).
  destruct (Hcm Hna) as [cnt Hc]. destruct (Hat i pos e Hi) as [Hb Hpos]. specialize (Hlive Hna).
  assert (Ho : kloose k h i c e (Z.of_nat pos) r (Z.of_nat L) cnt) by (constructor; try done; lia).
  assert (Hltb : (i < length (h_b h))%nat) by (by eapply lookup_lt_Some).
  assert (Hltc : (c < length (h_c h))%nat) by (by eapply lookup_lt_Some).
  (* calls that leave the handle open *)
  assert (Hkeep : forall st x L', is_there st = true -> o = ORet x -> track (there t) (Call i f) o = there t ->
    hand_step obeys r L (Pos pos e) f L' st x -> (forall j y, f = Copy -> x = RBody j y -> False) ->
    h_b h' = <[i := match st with Pos pos' e' => kbody k c e' (Z.of_nat pos') | Gone => kclosed k end]> (h_b h) ->
    (exists cnt, h_c h' !! c = Some (kcommon k r (Z.of_nat L') cnt)) -> (L' <= L)%nat -> (forall pos' e', st = Pos pos' e' -> Z.of_nat pos' <= max_i64) ->
    exists x L' t', o = ORet x /\ shrink_step obeys r L t i f L' t' x /\ rule_inv c L' t' h').
  { intros st x L' Hst -> Htr Hid Hnc Hb' Hc' HL' Hle. exists x, L', (<[i := st]> t). split; [done|].
    rewrite Htr in Hown', Hevs.
    assert (Hot : there (<[i := st]> t) = there t) by (rewrite there_insert, Hst; by apply insert_id).
    split.
    { exists (Pos pos e), st. split; [done|]. split; [done|]. destruct f; try done. destruct x; try done. exfalso. by eapply Hnc. }
    constructor; rewrite ?Hot; try done.
    - intros j pos' e' Hj. rewrite Hb'. destruct (decide (j = i)) as [->|Hne].
      + rewrite lookup_insert in Hj. injection Hj as ->. rewrite list_lookup_insert by done. split; [done|]. by eapply Hle.
      + rewrite lookup_insert_ne in Hj by done. rewrite list_lookup_insert_ne by done. by apply Hat.
    - intros j Hj. destruct (decide (j = i)) as [->|Hne]; [rewrite lookup_insert in Hj; by injection Hj as ->|].
      rewrite lookup_insert_ne in Hj by done. by apply Hsh'.
    - intros _. eapply live_exec2; try done. by apply Hevs.
    - lia. }
  destruct f as [|p| |off wh|p off|x| |].
  - destruct (l_BytesRemaining _ _ _ _ _ _ _ _ _ Ho) as (z & Hz & Hz1 & Hz2). rewrite Hz in Hex. injection Hex as <- <-.
    eapply (Hkeep (Pos pos e)); try done.
    + split; [done|]. split; [done|]. exists z. split; [done|]. split; [intros; apply Hz1; lia|intros; destruct Hz2; [lia|by left|right; lia]].
    + by rewrite list_insert_id.
    + eauto.
    + by intros pos' e' [= <- <-].
  - rewrite (l_Read _ _ _ _ _ _ _ _ _ _ Ho) in Hex. destruct e as [e|].
    + injection Hex as <- <-. eapply (Hkeep (Pos pos (Some e))); try done.
      * by rewrite list_insert_id.
      * eauto.
      * by intros pos' e' [= <- <-].
    + rewrite <- Nat2Z.inj_min in Hex.
      destruct (kfetch_obeys h p L (pos `min` L) Hlive ltac:(lia) Hmax) as (h1 & n & q & err & Hk & Hb1 & Hc1 & Hob). rewrite Hk in Hex. cbv zeta in Hex.
      assert (Hn : (pos `min` L + n <= L)%nat) by (destruct Hob as [[Hn _] _]; lia).
      rewrite <- Nat2Z.inj_add in Hex.
      set (L' := match err with Some _ => (L `min` (pos `min` L + n))%nat | None => L end).
      assert (Hh' : h_b h' = <[i := kbody k c err (Z.of_nat (pos `min` L + n))]> (h_b h1) /\ (exists cnt, h_c h' !! c = Some (kcommon k r (Z.of_nat L') cnt)) /\
                    o = ORet (RRead (Z.of_nat n) q err)).
      { injection Hex as <- <-. unfold L'. destruct err; [|cbn; rewrite Hc1; eauto].
        destruct (Z.of_nat (pos `min` L + n) <? Z.of_nat L) eqn:Hlt; cbn; rewrite Hc1; (split; [done|]); (split; [|done]).
        - rewrite list_lookup_insert by done. replace (L `min` (pos `min` L + n))%nat with (pos `min` L + n)%nat by lia. eauto.
        - replace (L `min` (pos `min` L + n))%nat with L by lia. eauto. }
      destruct Hh' as (Hb' & Hc' & ->).
      eapply (Hkeep (Pos (pos `min` L + n) err) _ L'); try done.
      * exists n, q, err. done.
      * by rewrite Hb', Hb1.
      * unfold L'. destruct err; lia.
      * intros pos' e' [= <- <-]. lia.
  - destruct (l_Close _ _ _ _ _ _ _ _ _ _ _ Ho Hex) as (err & -> & Hb' & Hc').
    exists (RErr err), L, (<[i := Gone]> t). split; [done|]. cbn [track] in Hown', Hevs. rewrite Hop in Hown', Hevs.
    assert (Hot : there (<[i := Gone]> t) = <[i := false]> (there t)) by apply there_insert.
    split.
    { exists (Pos pos e), Gone. split; [done|]. split; [|done]. split; [done|]. split; [done|]. exists err. done. }
    constructor; rewrite ?Hot; try done.
    + intros j pos' e' Hj. rewrite Hb'. destruct (decide (j = i)) as [->|Hne]; [by rewrite lookup_insert in Hj|].
      rewrite lookup_insert_ne in Hj by done. rewrite list_lookup_insert_ne by done. by apply Hat.
    + intros j Hj. rewrite Hb'. destruct (decide (j = i)) as [->|Hne]; [by rewrite list_lookup_insert|].
      rewrite lookup_insert_ne in Hj by done. rewrite list_lookup_insert_ne by done. by apply Hsh.
    + intros Hna'. exists (wrap32 (cnt - 1)). apply Hc'.
      assert (Hr' : reader_at h' c = Some r) by by apply (ow_rd _ _ _ _ Hown').
      assert (Hcnt : cnt = zlen (refs (h_b h) c)).
      { pose proof (wf_c _ (ow_wf _ _ _ _ Hown) _ _ Hc) as Hw. clear -Hw. destruct k; cbn in Hw; apply Hw. }
      assert (Hbc : body_common (kbody k c e (Z.of_nat pos)) = Some c) by (by destruct k).
      assert (Hdel : zlen (refs (h_b h') c) = zlen (refs (h_b h) c) - 1).
      { rewrite Hb'. eapply zlen_refs_del; [done|done|by destruct k]. }
      assert (Hne : refs (h_b h') c <> []) by (rewrite <- (own_refs_nil _ _ _ _ Hown'); done).
      pose proof (zlen_refs_le (h_b h) c). destruct Hf as [Hf _].
      assert (zlen (refs (h_b h') c) <> 0) by (unfold zlen; destruct (refs (h_b h') c); [done|cbn; lia]).
      pose proof (zlen_nonneg (refs (h_b h') c)). rewrite wrap32_id by lia. lia.
    + intros Hna'. eapply live_exec2; try done. by apply Hevs.
  - cbn in Hgo. rewrite (l_Seek _ _ _ _ _ _ _ _ _ _ _ Ho) in Hex by apply Hgo.
    destruct (seek_to (Z.of_nat L) (Z.of_nat pos) off wh) as [n err] eqn:Hs. injection Hex as <- <-.
    assert (Hn : err = None -> 0 <= n <= Z.of_nat L) by (revert Hs; unfold seek_to; repeat gif; intros [= <- <-] He; try discriminate He; lia).
    eapply (Hkeep (match err with None => Pos (Z.to_nat n) None | Some _ => Pos pos e end) _ L); try done.
    + by destruct err.
    + unfold hand_step. rewrite Hs. by destruct err.
    + destruct err; cbn; [by rewrite list_insert_id|]. rewrite Z2Nat.id by (by apply Hn). done.
    + destruct err; cbn; eauto.
    + destruct err; intros pos' e' [= <- <-]; [done|]. specialize (Hn eq_refl). lia.
  - rewrite (l_ReadAt _ _ _ _ _ _ _ _ _ _ _ Ho) in Hex. destruct (off <? 0) eqn:Hneg.
    + injection Hex as <- <-. eapply (Hkeep (Pos pos e) _ L); try done.
      * cbn. rewrite Hneg. done.
      * by rewrite list_insert_id.
      * eauto.
      * by intros pos' e' [= <- <-].
    + replace (Z.min off (Z.of_nat L)) with (Z.of_nat (Z.to_nat off `min` L)) in Hex by lia.
      destruct (kfetch_obeys h p L (Z.to_nat off `min` L) Hlive ltac:(lia) Hmax) as (h1 & n & q & err & Hk & Hb1 & Hc1 & Hob).
      rewrite Hk in Hex. injection Hex as <- <-. eapply (Hkeep (Pos pos e) _ L); try done.
      * unfold hand_step. rewrite Hneg. split; [done|]. split; [done|]. exists n, q, err. done.
      * by rewrite Hb1, list_insert_id.
      * rewrite Hc1. eauto.
      * by intros pos' e' [= <- <-].
  - rewrite (l_WriteTo _ _ _ _ _ _ _ _ _ _ Ho) in Hex. injection Hex as <- <-. eapply (Hkeep (Pos pos e) _ L); try done.
    + by rewrite list_insert_id.
    + eauto.
    + by intros pos' e' [= <- <-].
  - rewrite (l_Copy _ _ _ _ _ _ _ _ _ Ho) in Hex. injection Hex as <- <-.
    cbn [track] in Hown', Hevs. rewrite Hop in Hown', Hevs.
    pose proof (own_fresh _ _ _ _ Hown) as Hfr.
    assert (Hfr' : t !! length (h_b h) = None) by (unfold there in Hfr; rewrite lookup_fmap in Hfr; by destruct (t !! length (h_b h))).
    exists (RBody (length (h_b h)) None), L, (<[length (h_b h) := Pos pos e]> t). split; [done|]. split.
    { exists (Pos pos e), (Pos pos e). split; [done|]. split; [|done]. split; [done|]. split; [done|]. by eexists. }
    assert (Hot : there (<[length (h_b h) := Pos pos e]> t) = <[length (h_b h) := true]> (there t)) by apply there_insert.
    constructor; rewrite ?Hot; try done; cbn [set_c set_b h_b h_c].
    + intros j pos' e' Hj. destruct (decide (j = length (h_b h))) as [->|Hne].
      * rewrite lookup_insert in Hj. injection Hj as <- <-. rewrite lookup_app_r, Nat.sub_diag by lia. done.
      * rewrite lookup_insert_ne in Hj by done. destruct (Hat j pos' e' Hj) as [H1 H2]. split; [|done].
        rewrite lookup_app_l; [done|]. by eapply lookup_lt_Some.
    + intros j Hj. destruct (decide (j = length (h_b h))) as [->|Hne]; [by rewrite lookup_insert in Hj|].
      rewrite lookup_insert_ne in Hj by done. by apply Hsh'.
    + intros _. rewrite list_lookup_insert by done. eauto.
  - rewrite (l_Unwrap _ _ _ _ _ _ _ _ _ Ho) in Hex. injection Hex as <- <-. eapply (Hkeep (Pos pos e) _ L); try done.
    + by rewrite list_insert_id.
    + eauto.
    + by intros pos' e' [= <- <-].
Qed.

Lemma rule_trace c cs : forall L t h h' os,
  go_env E -> rule_inv c L t h -> Forall go_cmd cs -> Forall (fun c => ~ wraps r c) cs -> feasible h' ->
  history E fuel h cs = (h', os) -> shrink_trace obeys r L t cs os.
Proof.
  induction cs as [|cmd cs IH]; intros L t h h' os Hge Hsi Hgo Hnw Hf H; cbn in H; [by injection H as <- <-|].
  apply Forall_cons in Hgo as [Hg1 Hg2]. apply Forall_cons in Hnw as [Hn1 Hn2].
  destruct (exec E fuel h cmd) as [h1 o] eqn:Hex.
  assert (Hf1 : feasible h1).
  { destruct o; [destruct (history E fuel h1 cs) as [h2 os'] eqn:Hh..|]; injection H as <- <-; [by eapply history_feasible..|done]. }
  pose proof (rule_step c L t h cmd h1 o Hge Hsi Hg1 Hn1 Hf1 Hex) as Hst.
  assert (Hgen : forall os', os = o :: os' -> (forall L' t', rule_inv c L' t' h1 -> shrink_trace obeys r L' t' cs os') -> shrink_trace obeys r L t (cmd :: cs) os).
  { intros os' -> Hrest. destruct cmd as [i f| | | | | | |]; try (by apply Hrest). cbn [shrink_trace].
    destruct (t !! i); [|by apply Hrest]. destruct Hst as (x & L' & t' & -> & Hfs & Hsi'). exists x, L', t'. auto. }
  destruct o.
  - destruct (history E fuel h1 cs) as [h2 os'] eqn:Hh. injection H as <- <-. eapply Hgen; [done|]. intros L' t' Ht'. by eapply (IH L' t' h1 h2).
  - destruct (history E fuel h1 cs) as [h2 os'] eqn:Hh. injection H as <- <-. eapply Hgen; [done|]. intros L' t' Ht'. by eapply (IH L' t' h1 h2).
  - injection H as <- <-. eapply (Hgen []); [done|]. intros L' t' _. by destruct cs as [|[] ?].
Qed.

Lemma rule_new D h cmd h1 i :
  go_env E -> unowned r h -> go_cmd cmd -> wraps r cmd -> feasible h1 ->
  exec E fuel h cmd = (h1, ORet (RBody i None)) -> announces E fuel h1 i (Z.of_nat D) ->
  match k with KAt => cp_readerat (ev_caps E r) = true | KSeek => cp_readerat (ev_caps E r) = false /\ cp_seeker (ev_caps E r) = true end ->
  live (h_w h) ->
  rule_inv (length (h_c h)) D {[ i := Pos 0 None ]} h1.
Proof.
  intros Hge Hu Hgo Hw Hfe Hex Hann Hkind Hl.
  destruct (own_new E fuel r h cmd h1 i Hge Hu Hgo Hw Hfe Hex) as (-> & Hown & Hnc).
  assert (Hl1 : live (h_w h1)).
  { destruct (exec_log E _ _ _ _ _ Hex) as [evs Hlog]. eapply live_exec2; [done|done|exact Hlog|].
    rewrite Hlog, calls_on_app in Hnc. by apply Forall_app in Hnc as [_ ?]. }
  assert (exists len, exec E fuel h cmd = run E h (rfrom (FromReaderAndLength r len))) as [len Hlen].
  { destruct Hw as [->|[n ->]]; eexists; reflexivity. }
  rewrite Hlen in Hex. unfold rfrom in Hex. rewrite run_bind, run_From in Hex.
  destruct (find_len E (h_w h) r len) as [[w evs] x] eqn:Hfl. destruct x as [l|e|]; cbn in Hex; try done.
  injection Hex as <-.
  assert (Hlb : forall x, (h_b h ++ [x]) !! length (h_b h) = Some x) by (intros; rewrite lookup_app_r, Nat.sub_diag by lia; done).
  assert (Hlc : forall x, (h_c h ++ [x]) !! length (h_c h) = Some x) by (intros; rewrite lookup_app_r, Nat.sub_diag by lia; done).
  assert (l = Z.of_nat D) as ->.
  { unfold announces, exec in Hann. cbn [cmd_prog set_b set_c h_b] in Hann. rewrite Hlb in Hann. unfold new_pair in Hann.
    destruct (cp_readerat (ev_caps E r)), (cp_seeker (ev_caps E r)), (l >=? 0) eqn:Hl0; cbn [andb orb] in Hann;
    cbn in Hann; rewrite Hlb in Hann; cbn in Hann; rewrite Hlc in Hann; cbn in Hann; revert Hann; repeat gif; cbn; intros [= Hann]; lia. }
  assert (Hnp : new_pair E (length (h_c h)) (length (h_b h)) r (Z.of_nat D) = (kbody k (length (h_c h)) None 0, kcommon k r (Z.of_nat D) 1)).
  { unfold new_pair. replace (Z.of_nat D >=? 0) with true by lia. rewrite !andb_true_r.
    revert Hkind. generalize k. intros []; [by intros ->|by intros [-> ->]]. }
  rewrite Hnp in *. cbn [fst snd] in *.
  constructor; cbn [set_b set_c h_log h_b h_c heap_wl] in *.
  - unfold there. by rewrite map_fmap_singleton.
  - intros j pos e Hj. apply lookup_singleton_Some in Hj as [<- [= <- <-]]. split; [apply Hlb|unfold max_i64; lia].
  - intros j Hj. by apply lookup_singleton_Some in Hj as [<- Hj].
  - intros _. exists 1. apply Hlc.
  - done.
  - pose proof (wf_c _ (ow_wf _ _ _ _ Hown) _ _ (Hlc _)) as Hwc. revert Hwc. generalize k. intros []; cbn; intros Hwc; lia.
Qed.

Lemma rule_main w h1 i cs h2 os D :
  match k with KAt => cp_readerat (ev_caps E r) = true | KSeek => cp_readerat (ev_caps E r) = false /\ cp_seeker (ev_caps E r) = true end ->
  live w -> wrapped_once E fuel r w h1 i cs h2 os -> announces E fuel h1 i (Z.of_nat D) ->
  shrink_trace obeys r D {[ i := Pos 0 None ]} cs os.
Proof.
  intros Hk Hl Hw Hann.
  pose proof Hw as (Hge & cs0 & os0 & h0 & new & Hgo & Hnw & Hwr & H0 & H1 & H2 & Hf).
  apply Forall_app in Hgo as [Hgo0 Hgo]. apply Forall_cons in Hgo as [Hg1 Hg2]. apply Forall_app in Hnw as [Hnw0 Hnw].
  assert (Hf1 : feasible h1) by (by eapply history_feasible).
  assert (Hf0 : feasible h0) by (by eapply exec_feasible).
  assert (Hu : unowned r h0) by (eapply (unowned_history E fuel r cs0 (initial w)); try done; apply unowned_initial).
  assert (Hl0 : live (h_w h0)).
  { destruct (history_live E fuel r live cs0 Huc _ _ _ H0 Hl) as (evs & Hlog & Hli). apply Hli. cbn in Hlog. rewrite <- Hlog, (un_log _ _ Hu). constructor. }
  assert (Hsi : rule_inv (length (h_c h0)) D {[ i := Pos 0 None ]} h1) by (by eapply rule_new).
  by eapply rule_trace with (h := h1) (h' := h2).
Qed.
End Rule.

Lemma fits_in d off (px : bytes) n q :
  (n <= length px)%nat -> (n <= length d - off)%nat -> take n q = take n (drop off d) ->
  length (fit px q) = length px /\ take n (fit px q) = take n (drop off d).
Proof.
  intros Hn1 Hn2 Hq. split; [apply fit_length|].
  assert (Hlq : (n <= length q)%nat).
  { apply (f_equal length) in Hq. rewrite !take_length, drop_length in Hq. lia. }
  unfold fit. rewrite take_take, Nat.min_l by done. by rewrite take_app_le.
Qed.

Lemma krd_true k r live d h off px :
  match k with KAt => truthful_at E r live d | KSeek => truthful_seek E r live d end ->
  live (h_w h) -> Z.of_nat off <= max_i64 ->
  exists h1 n q e, krd E k r h px (Z.of_nat off) = (h1, ORet (Z.of_nat n, q, e)) /\ h_b h1 = h_b h /\ h_c h1 = h_c h /\
    (n <= length px)%nat /\ length q = length px /\ take n q = take n (drop off d) /\ True.
Proof.
  intros Hs Hl Hoff. assert (Ho : 0 <= Z.of_nat off <= max_i64) by lia. unfold krd. destruct k; destruct Hs as [_ Hrd].
  - unfold ra_rd. destruct (ev_readat E (h_w h) r px (Z.of_nat off)) as [w [[n q] e]] eqn:Hr.
    destruct (Hrd _ _ _ _ _ _ _ Hl Ho Hr) as (n' & -> & [Hn1 Hn2] & Hq). rewrite Nat2Z.id in Hn2, Hq.
    destruct (fits_in d off px n' q Hn1 Hn2 Hq) as [H1 H2].
    replace ((0 <=? Z.of_nat n') && (Z.of_nat n' <=? zlen px)) with true by (unfold zlen; lia). eexists _, n', _, e. done.
  - unfold sk_rd. destruct (ev_seek E (h_w h) r (Z.of_nat off) SeekStart) as [w1 [n1 [e1|]]] eqn:Hsk.
    { eexists _, 0%nat, _, _. split; [reflexivity|]. split; [done|]. split; [done|]. split; [lia|]. done. }
    specialize (Hrd _ _ _ _ Hl Ho Hsk).
    destruct (ev_read E w1 r px) as [w [[n q] e]] eqn:Hr.
    destruct (Hrd _ _ _ _ _ Hr) as (n' & -> & [Hn1 Hn2] & Hq). rewrite Nat2Z.id in Hn2, Hq.
    destruct (fits_in d off px n' q Hn1 Hn2 Hq) as [H1 H2].
    replace ((0 <=? Z.of_nat n') && (Z.of_nat n' <=? zlen px)) with true by (unfold zlen; lia). eexists _, n', _, e. done.
Qed.

Definition ends_rule (d : bytes) (early : bool) (off : nat) (px : bytes) (n : nat) (e : option error) : Prop :=
  if (off <? length d)%nat then read_at d early off px n e else n = 0%nat /\ (e = Some EOF \/ e = None /\ px = []).

Lemma krd_ends k r live d early h off px :
  match k with KAt => ends_at E r live d early | KSeek => ends_seek E r live d early end ->
  live (h_w h) -> Z.of_nat off <= max_i64 ->
  exists h1 n q e, krd E k r h px (Z.of_nat off) = (h1, ORet (Z.of_nat n, q, e)) /\ h_b h1 = h_b h /\ h_c h1 = h_c h /\
    (n <= length px)%nat /\ length q = length px /\ take n q = take n (drop off d) /\ ends_rule d early off px n e.
Proof.
  intros Hs Hl Hoff.
  assert (Hgood : forall n q e, (off < length d)%nat -> good_read d early off px n q e ->
    exists n', n = Z.of_nat n' /\ (0 <=? n) && (n <=? zlen px) = true /\ (n' <= length px)%nat /\ length (fit px q) = length px /\
      take n' (fit px q) = take n' (drop off d) /\ ends_rule d early off px n' e).
  { intros n q e Hlt (n' & -> & Hra & Hq). exists n'. pose proof Hra as [Hn _]. assert (n' <= length px)%nat by lia. assert (n' <= length d - off)%nat by lia.
    destruct (fits_in d off px n' q) as [H1 H2]; [done..|].
    split; [done|]. split; [unfold zlen; lia|]. split; [done|]. split; [done|]. split; [done|]. unfold ends_rule. by replace (off <? length d)%nat with true by lia. }
  assert (Hpast : forall n q e, (length d <= off)%nat -> past_end px n e ->
    exists n', n = Z.of_nat n' /\ (0 <=? n) && (n <=? zlen px) = true /\ (n' <= length px)%nat /\ length (fit px q) = length px /\
      take n' (fit px q) = take n' (drop off d) /\ ends_rule d early off px n' e).
  { intros n q e Hge (-> & He). exists 0%nat. pose proof (zlen_nonneg px).
    split; [done|]. split; [lia|]. split; [lia|]. split; [apply fit_length|]. split; [done|]. unfold ends_rule. by replace (off <? length d)%nat with false by lia. }
  unfold krd. destruct k; destruct Hs as [[_ Hrd] Hend].
  - unfold ra_rd. destruct (ev_readat E (h_w h) r px (Z.of_nat off)) as [w [[n q] e]] eqn:Hr.
    assert (exists n', n = Z.of_nat n' /\ (0 <=? n) && (n <=? zlen px) = true /\ (n' <= length px)%nat /\ length (fit px q) = length px /\
      take n' (fit px q) = take n' (drop off d) /\ ends_rule d early off px n' e) as (n' & -> & -> & H).
    { destruct (decide (off < length d)%nat) as [Hlt|Hge].
      - apply Hgood; [done|]. rewrite <- (Nat2Z.id off). eapply Hrd; [exact Hl|unfold zlen; lia|exact Hr].
      - apply Hpast; [lia|]. eapply (Hend (h_w h) px (Z.of_nat off)); [exact Hl|unfold zlen; lia|exact Hr]. }
    eexists _, n', _, e. done.
  - unfold sk_rd.
    assert (exists w1 n1, ev_seek E (h_w h) r (Z.of_nat off) SeekStart = (w1, (n1, None)) /\ forall w' n q e, ev_read E w1 r px = (w', (n, q, e)) ->
      exists n', n = Z.of_nat n' /\ (0 <=? n) && (n <=? zlen px) = true /\ (n' <= length px)%nat /\ length (fit px q) = length px /\
      take n' (fit px q) = take n' (drop off d) /\ ends_rule d early off px n' e) as (w1 & n1 & -> & Hre).
    { destruct (decide (off < length d)%nat) as [Hlt|Hge].
      - destruct (Hrd (h_w h) (Z.of_nat off) Hl ltac:(unfold zlen; lia)) as (w1 & n1 & Hsk & Hre). exists w1, n1. split; [done|].
        intros w' n q e Hr. apply Hgood; [done|]. rewrite <- (Nat2Z.id off). by eapply Hre.
      - destruct (Hend (h_w h) (Z.of_nat off) Hl ltac:(unfold zlen; lia)) as (w1 & n1 & Hsk & Hre). exists w1, n1. split; [done|].
        intros w' n q e Hr. apply Hpast; [lia|]. by eapply Hre. }
    destruct (ev_read E w1 r px) as [w [[n q] e]] eqn:Hr. destruct (Hre _ _ _ _ eq_refl) as (n' & -> & -> & H).
    eexists _, n', _, e. done.
Qed.
End Short.

Lemma shrink_mono (I : nat -> Prop) (R R' : nat -> nat -> bytes -> nat -> bytes -> option error -> Prop) r :
  (forall L pos p n q err, I L -> (pos <= L)%nat -> R L pos p n q err -> R' L pos p n q err /\ (err <> None -> I (L `min` (pos + n))%nat)) ->
  forall cs os L t, I L -> shrink_trace R r L t cs os -> shrink_trace R' r L t cs os.
Proof.
  intros HR. induction cs as [|c cs IH]; intros os L t HI; [done|]. destruct os as [|o os]; [by destruct c|].
  destruct c as [i f| | | | | | |]; cbn; try (by apply IH). destruct (t !! i) as [st|] eqn:Hi; [|by apply IH].
  intros (x & L' & t' & -> & (st1 & st' & Hst & Hhs & Ht') & Htr). exists x, L', t'. split; [done|].
  assert (Hh : hand_step R' r L st1 f L' st' x /\ I L').
  { destruct st1 as [|pos e]; [by destruct Hhs as (-> & ?)|]. destruct f as [|p| |off wh|p off| | |]; cbn in *; try (by destruct Hhs as (-> & ?)).
    - destruct e; [by destruct Hhs as (-> & ?)|]. destruct Hhs as (n & q & err & H1 & H2 & H3 & ->).
      apply HR in H1 as [H1 H4]; [|done|lia]. split; [by exists n, q, err|]. destruct err; auto.
    - destruct (seek_to _ _ _ _). by destruct Hhs as (-> & ?).
    - destruct Hhs as (-> & -> & H). split; [|done]. split; [done|]. split; [done|]. destruct (off <? 0); [done|].
      destruct H as (n & q & err & H1 & ->). apply HR in H1 as [H1 _]; [|done|lia]. by exists n, q, err. }
  destruct Hh as [Hh HI']. split; [by exists st1, st'|]. by apply IH.
Qed.

Section Main.
Context {W : Type} (E : env W) (fuel : nat).

(** ** C57 *)
Lemma faults k r live d w h1 i cs h2 os D :
  match k with KAt => truthful_at E r live d | KSeek => truthful_seek E r live d end ->
  match k with KAt => cp_readerat (ev_caps E r) = true | KSeek => cp_readerat (ev_caps E r) = false /\ cp_seeker (ev_caps E r) = true end ->
  live w -> wrapped_once E fuel r w h1 i cs h2 os -> announces E fuel h1 i (Z.of_nat D) ->
  shrink_trace (served d) r D {[ i := Pos 0 None ]} cs os.
Proof.
  intros Hs Hk Hl Hw Ha.
  assert (Huc : until_closed E r live) by (destruct k; apply Hs).
  apply (shrink_mono (fun _ => True) (obeys d (fun _ _ _ _ => True))); [|done|].
  - intros L pos p n q err _ _ [H _]. done.
  - eapply (rule_main E fuel k r live d); try done. intros h off px Hli Ho. by apply (krd_true E k r live).
Qed.
Lemma faults_at r live d :
  truthful_at E r live d -> cp_readerat (ev_caps E r) = true -> forall w h1 i cs h2 os (D : nat),
  live w -> wrapped_once E fuel r w h1 i cs h2 os -> announces E fuel h1 i (Z.of_nat D) ->
  shrink_trace (served d) r D {[ i := Pos 0 None ]} cs os.
Proof. intros. by eapply (faults KAt). Qed.
Lemma faults_seek r live d :
  truthful_seek E r live d -> cp_readerat (ev_caps E r) = false -> cp_seeker (ev_caps E r) = true -> forall w h1 i cs h2 os (D : nat),
  live w -> wrapped_once E fuel r w h1 i cs h2 os -> announces E fuel h1 i (Z.of_nat D) ->
  shrink_trace (served d) r D {[ i := Pos 0 None ]} cs os.
Proof. intros. by eapply (faults KSeek). Qed.

Lemma ends_all d early L pos p n q err :
  (length d <= L)%nat -> (pos <= L)%nat -> obeys d (ends_rule d early) L pos p n q err ->
  served_all d early L pos p n q err /\ (err <> None -> (length d <= L `min` (pos + n))%nat).
Proof.
  intros HL Hpos [Hse HA]. pose proof Hse as (Hn & Hq & Hlq & Hd & Hshort & Hend).
  assert (Hend' : ends_rule d early pos p n err).
  { destruct (decide (pos < L)%nat) as [Hlt|Hge].
    - destruct (HA Hlt) as (e & He & ->). unfold ends_rule in *. rewrite !(take_length p) in He || idtac.
      destruct (pos <? length d)%nat eqn:Hpd.
      + unfold read_at in *. rewrite take_length in He. destruct He as (He1 & He2 & He3 & He4).
        split; [lia|]. destruct (L - pos <? length p)%nat eqn:Hsh.
        * split; [lia|]. split; [|lia]. intros _. destruct (decide (length d - pos < L - pos)%nat).
          { rewrite He3 by lia. done. }
          { destruct (He4 ltac:(lia)) as [->|(_ & _ & ->)]; done. }
        * split; [intros; rewrite He2 by lia; done|]. split; [intros; rewrite He3 by lia; done|].
          intros Hpe. destruct (He4 ltac:(lia)) as [->|(-> & _ & ->)]; [by left|]. right. split; [done|]. split; [lia|done].
      + destruct He as (-> & [->|[-> Hp]]); (split; [done|]); [by left|].
        assert (p = []) as -> by (destruct p; [done|]; destruct (L - pos)%nat eqn:Hx; [lia|done]). right. split; [|done]. by replace (L - pos <? length (@nil byte))%nat with false by (cbn; lia).
    - assert (pos = L) as -> by lia. rewrite (Hend ltac:(lia)). unfold ends_rule. replace (L <? length d)%nat with false by lia.
      split; [lia|]. destruct p; [by right|by left]. }
  split; [by split|]. intros He. unfold ends_rule, read_at in Hend'. destruct (pos <? length d)%nat eqn:Hpd; [|lia].
  destruct Hend' as (-> & H2 & H3 & H4). destruct (decide (length p < length d - pos)%nat); [by rewrite H2 in He|]. lia.
Qed.

Lemma short k r live d early w h1 i cs h2 os D :
  match k with KAt => ends_at E r live d early | KSeek => ends_seek E r live d early end ->
  match k with KAt => cp_readerat (ev_caps E r) = true | KSeek => cp_readerat (ev_caps E r) = false /\ cp_seeker (ev_caps E r) = true end ->
  live w -> wrapped_once E fuel r w h1 i cs h2 os -> announces E fuel h1 i (Z.of_nat D) -> (length d <= D)%nat ->
  shrink_trace (served_all d early) r D {[ i := Pos 0 None ]} cs os.
Proof.
  intros Hs Hk Hl Hw Ha HD.
  assert (Huc : until_closed E r live) by (destruct k; apply Hs).
  apply (shrink_mono (fun L => (length d <= L)%nat) (obeys d (ends_rule d early))); [|done|].
  - intros L pos p n q err. apply ends_all.
  - eapply (rule_main E fuel k r live d); try done. intros h off px Hli Ho. by apply (krd_ends E k r live).
Qed.
Lemma short_at r live d early :
  ends_at E r live d early -> cp_readerat (ev_caps E r) = true -> forall w h1 i cs h2 os (D : nat),
  live w -> wrapped_once E fuel r w h1 i cs h2 os -> announces E fuel h1 i (Z.of_nat D) -> (length d <= D)%nat ->
  shrink_trace (served_all d early) r D {[ i := Pos 0 None ]} cs os.
Proof. intros. by eapply (short KAt). Qed.
Lemma short_seek r live d early :
  ends_seek E r live d early -> cp_readerat (ev_caps E r) = false -> cp_seeker (ev_caps E r) = true -> forall w h1 i cs h2 os (D : nat),
  live w -> wrapped_once E fuel r w h1 i cs h2 os -> announces E fuel h1 i (Z.of_nat D) -> (length d <= D)%nat ->
  shrink_trace (served_all d early) r D {[ i := Pos 0 None ]} cs os.
Proof. intros. by eapply (short KSeek). Qed.
End Main.

(** ** After the end has been seen *)
Section Settled.
Context (d : bytes) (early : bool) (r : rid).
Definition as_cursor (st : hand) : cursor := match st with Gone => Shut | Pos pos e => At pos (is_some_err e) end.
Definition as_table (t : gmap nat hand) : table := as_cursor <$> t.
Lemma as_insert t i st : as_table (<[i := st]> t) = <[i := as_cursor st]> (as_table t).
Proof. unfold as_table. by rewrite fmap_insert. Qed.
Lemma as_lookup t i : as_table t !! i = as_cursor <$> t !! i.
Proof. unfold as_table. apply lookup_fmap. Qed.

(** Where nobody has used Seek. *)
Record calm (L : nat) (t : gmap nat hand) : Prop := {
  ca_len : (length d <= L)%nat;
  ca_pos : forall i pos e, t !! i = Some (Pos pos e) -> (pos <= length d)%nat /\ (e = None \/ e = Some EOF /\ L = length d)
}.

Lemma all_end L pos p n q err : (length d <= L)%nat -> (pos <= length d)%nat -> served_all d early L pos p n q err ->
  (pos + n <= length d)%nat /\ (err = None \/ err = Some EOF /\ (pos + n = length d)%nat).
Proof.
  intros HL Hpos [_ H]. destruct (pos <? length d)%nat eqn:Hpd.
  - destruct H as (-> & H2 & H3 & H4). split; [lia|]. destruct (decide (length p < length d - pos)%nat); [left; auto|].
    destruct (decide (length d - pos < length p)%nat); [right; split; [auto|lia]|]. destruct (H4 ltac:(lia)) as [->|(_ & _ & ->)]; [by left|right; split; [done|lia]].
  - destruct H as (-> & [->|[-> _]]); (split; [lia|]); [right; split; [done|lia]|by left].
Qed.

Definition no_seek (c : cmd) : Prop := match c with Call _ (Seek _ _) => False | _ => True end.

Lemma calm_trace cs1 : forall L t cs2 os1 os2,
  length os1 = length cs1 -> Forall no_seek cs1 -> calm L t ->
  shrink_trace (served_all d early) r L t (cs1 ++ cs2) (os1 ++ os2) ->
  exists L' t', calm L' t' /\ as_table t' = follows (as_table t) cs1 os1 /\ shrink_trace (served_all d early) r L' t' cs2 os2.
Proof.
  induction cs1 as [|c cs1 IH]; intros L t cs2 os1 os2 Hlen Hns Hca; [destruct os1; [|done]; intros H; by exists L, t|].
  destruct os1 as [|o os1]; [done|]. injection Hlen as Hlen. apply Forall_cons in Hns as [Hn1 Hn2]. cbn [app follows].
  destruct c as [i f| | | | | | |]; cbn [shrink_trace]; try (by apply IH).
  destruct (t !! i) as [st|] eqn:Hi.
  2: { intros H. apply IH in H; [|done..]. replace (follow (as_table t) (Call i f) o) with (as_table t); [done|].
       unfold follow. rewrite as_lookup, Hi. cbn. destruct f; try done; destruct o as [x| |]; try done; destruct x as [| | | | |? []| | |]; done. }
  intros (x & L' & t' & -> & (st1 & st' & Hst & Hhs & Ht') & Htr). rewrite Hst in Hi. injection Hi as <-.
  assert (Hgoal : calm L' t' /\ as_table t' = follow (as_table t) (Call i f) (ORet x)).
  2: { destruct Hgoal as [Hca' <-]. by apply IH in Htr. }
  clear IH Htr. pose proof Hca as [HL Hpos].
  destruct st1 as [|pos e].
  { destruct Hhs as (-> & -> & ->). rewrite insert_id in Ht' by done. subst t'. split; [done|].
    unfold follow. rewrite as_lookup, Hst. cbn. destruct f; done. }
  destruct (Hpos _ _ _ Hst) as [Hp1 Hp2].
  destruct f as [|p| |off wh|p off|y| |]; cbn [hand_step follow] in *; rewrite ?as_lookup, ?Hst; cbn [fmap option_fmap option_map as_cursor].
  - destruct Hhs as (-> & -> & z & -> & _). rewrite insert_id in Ht' by done. by subst t'.
  - destruct e as [e|].
    + destruct Hhs as (-> & -> & ->). rewrite insert_id in Ht' by done. subst t'. split; [done|].
      rewrite Nat.add_0_r. symmetry. apply insert_id. by rewrite as_lookup, Hst.
    + destruct Hhs as (n & q & err & HR & -> & -> & ->). rewrite Nat.min_l in * by lia.
      destruct (all_end _ _ _ _ _ _ HL Hp1 HR) as [Hle Herr]. subst t'. split.
      * constructor; [destruct Herr as [->|[-> ?]]; lia|]. intros j pos' e' Hj. destruct (decide (j = i)) as [->|Hne].
        -- rewrite lookup_insert in Hj. injection Hj as <- <-. split; [done|]. destruct Herr as [->|[-> ?]]; [by left|right; split; [done|lia]].
        -- rewrite lookup_insert_ne in Hj by done. destruct (Hpos _ _ _ Hj) as [H1 [H2|[H2 H3]]]; (split; [done|]); [by left|right; split; [done|]].
           destruct Herr as [->|[-> ?]]; lia.
      * rewrite as_insert. cbn. by rewrite Nat2Z.id.
  - destruct Hhs as (-> & -> & err & ->). subst t'. rewrite as_insert. split; [|done].
    constructor; [done|]. intros j pos' e' Hj. destruct (decide (j = i)) as [->|Hne]; [by rewrite lookup_insert in Hj|].
    rewrite lookup_insert_ne in Hj by done. eauto.
  - done.
  - destruct Hhs as (-> & -> & H). rewrite insert_id in Ht' by done. by subst t'.
  - destruct Hhs as (-> & -> & ->). rewrite insert_id in Ht' by done. by subst t'.
  - destruct Hhs as (-> & -> & j & ->). destruct Ht' as [Hj ->]. rewrite as_insert. split; [|done].
    constructor; [done|]. intros j' pos' e' Hj'. destruct (decide (j' = j)) as [->|Hne].
    + rewrite lookup_insert in Hj'. injection Hj' as <- <-. eauto.
    + rewrite lookup_insert_ne in Hj' by done. eauto.
  - destruct Hhs as (-> & -> & ->). rewrite insert_id in Ht' by done. by subst t'.
Qed.

(** The length is right, and everybody within it. *)
Record settled (t : gmap nat hand) : Prop := {
  se_pos : forall i pos e, t !! i = Some (Pos pos e) -> (pos <= length d)%nat /\ (e = None \/ e = Some EOF)
}.
Let F := first_bytes r early (zlen d) d.

Lemma all_exact pos p n q err : (pos <= length d)%nat -> served_all d early (length d) pos p n q err ->
  read_at d early pos p n err /\ q = filled d pos n p.
Proof.
  intros Hpos [(Hn & Hq & Hlq & Hd & Hsh & Hend) Hall].
  assert (Hra : read_at d early pos p n err).
  { destruct (pos <? length d)%nat eqn:Hpd; [done|]. assert (pos = length d) as -> by lia. rewrite (Hend ltac:(lia)).
    destruct Hall as [-> _]. unfold read_at. rewrite Nat.sub_diag. split; [lia|]. split; [lia|]. destruct p; cbn; (split; [lia || done|]); [by left|lia]. }
  split; [done|]. destruct Hra as [Hnn _]. rewrite <- Hnn in Hd. unfold filled. rewrite <- Hq, <- Hd. by rewrite take_drop.
Qed.

Lemma settled_trace cs : forall t os, settled t ->
  shrink_trace (served_all d early) r (length d) t cs os -> fam_trace F (as_table t) cs os.
Proof.
  assert (HdF : fam_data F = d) by (unfold F, first_bytes; cbn; rewrite take_ge; [done|unfold zlen; lia]).
  induction cs as [|c cs IH]; intros t os Hse; [done|]. destruct os as [|o os]; [by destruct c|].
  destruct c as [i f| | | | | | |]; cbn [shrink_trace fam_trace]; try (by apply IH).
  rewrite as_lookup. destruct (t !! i) as [st|] eqn:Hi; cbn; [|by apply IH].
  intros (x & L' & t' & -> & (st1 & st' & Hst & Hhs & Ht') & Htr). rewrite Hst in Hi. injection Hi as <-.
  assert (Hgoal : L' = length d /\ settled t' /\ fam_step F (as_table t) i f (as_table t') x).
  2: { destruct Hgoal as (-> & Hs' & Hf). exists (as_table t'). split; [done|]. by apply IH. }
  clear IH Htr. destruct Hse as [Hpos].
  destruct st1 as [|pos e].
  { destruct Hhs as (-> & -> & ->). rewrite insert_id in Ht' by done. subst t'. split; [done|]. split; [done|].
    exists Shut, Shut. rewrite as_lookup, Hst. split; [done|]. split; [|symmetry; apply insert_id; by rewrite as_lookup, Hst]. split; [done|]. by destruct f. }
  destruct (Hpos _ _ _ Hst) as [Hp1 Hp2].
  assert (Hsame : forall st2, ideal F (At pos (is_some_err e)) f st2 x -> st2 = At pos (is_some_err e) -> f <> Copy -> t' = <[i := Pos pos e]> t -> settled t' /\ fam_step F (as_table t) i f (as_table t') x).
  { intros st2 Hid -> Hnc ->. rewrite insert_id by done. split; [by constructor|]. exists (At pos (is_some_err e)), (At pos (is_some_err e)).
    rewrite as_lookup, Hst. split; [done|]. split; [done|]. rewrite insert_id by (by rewrite as_lookup, Hst). by destruct f. }
  destruct f as [|p| |off wh|p off|y| |]; cbn [hand_step] in *.
  - destruct Hhs as (-> & -> & z & -> & Hz & _). split; [done|]. eapply Hsame; try done. cbn [ideal]. rewrite HdF, Hz by done. done.
  - destruct e as [e|].
    + destruct Hhs as (-> & -> & ->). split; [done|]. destruct Hp2 as [?|[= ->]]; [done|]. eapply Hsame; try done.
    + destruct Hhs as (n & q & err & HR & -> & -> & ->). rewrite Nat.min_l in * by lia.
      destruct (all_end _ _ _ _ _ _ (le_n _) Hp1 HR) as [Hle Herr]. destruct (all_exact _ _ _ _ _ Hp1 HR) as [Hra ->].
      split; [destruct Herr as [->|[-> ?]]; lia|]. subst t'. split.
      * constructor. intros j pos' e' Hj. destruct (decide (j = i)) as [->|Hne].
        -- rewrite lookup_insert in Hj. injection Hj as <- <-. split; [done|]. destruct Herr as [->|[-> ?]]; auto.
        -- rewrite lookup_insert_ne in Hj by done. eauto.
      * exists (At pos false), (At (pos + n) (is_some_err err)). rewrite as_lookup, Hst. split; [done|]. split; [|by rewrite as_insert].
        cbn [ideal]. rewrite HdF. exists n, err. done.
  - destruct Hhs as (-> & -> & err & ->). split; [done|]. subst t'. split.
    + constructor. intros j pos' e' Hj. destruct (decide (j = i)) as [->|Hne]; [by rewrite lookup_insert in Hj|]. rewrite lookup_insert_ne in Hj by done. eauto.
    + exists (At pos (is_some_err e)), Shut. rewrite as_lookup, Hst. split; [done|]. split; [|by rewrite as_insert]. split; [done|]. by exists err.
  - destruct (seek_to (Z.of_nat (length d)) (Z.of_nat pos) off wh) as [n err] eqn:Hs. destruct Hhs as (-> & -> & ->). split; [done|].
    assert (Hn : err = None -> 0 <= n <= Z.of_nat (length d)) by (revert Hs; unfold seek_to; repeat gif; intros [= <- <-] He; try discriminate He; lia).
    destruct err as [err|].
    + eapply Hsame; try done. cbn [ideal]. by rewrite HdF, Hs.
    + subst t'. split.
      * constructor. intros j pos' e' Hj. destruct (decide (j = i)) as [->|Hne].
        -- rewrite lookup_insert in Hj. injection Hj as <- <-. specialize (Hn eq_refl). split; [lia|by left].
        -- rewrite lookup_insert_ne in Hj by done. eauto.
      * exists (At pos (is_some_err e)), (At (Z.to_nat n) false). rewrite as_lookup, Hst. split; [done|]. split; [|by rewrite as_insert].
        cbn [ideal]. by rewrite HdF, Hs.
  - destruct Hhs as (-> & -> & H). split; [done|]. eapply Hsame; try done. cbn [ideal]. split; [done|]. rewrite HdF. cbn [fam_flavour F first_bytes is_empty_flavour negb]. rewrite andb_true_r.
    destruct (off <? 0) eqn:Hneg; [done|]. destruct H as (n & q & err & HR & ->). replace (Z.to_nat (Z.min off (Z.of_nat (length d)))) with (Z.to_nat off `min` length d)%nat by lia.
    apply all_exact in HR as [Hra ->]; [|lia]. exists n, err. done.
  - destruct Hhs as (-> & -> & ->). split; [done|]. eapply Hsame; try done.
  - destruct Hhs as (-> & -> & j & ->). split; [done|]. destruct Ht' as [Hj ->]. split.
    + constructor. intros j' pos' e' Hj'. destruct (decide (j' = j)) as [->|Hne].
      * rewrite lookup_insert in Hj'. injection Hj' as <- <-. eauto.
      * rewrite lookup_insert_ne in Hj' by done. eauto.
    + exists (At pos (is_some_err e)), (At pos (is_some_err e)). rewrite as_lookup, Hst. split; [done|]. split; [split; [done|by eexists]|].
      rewrite as_lookup, Hj, as_insert. done.
  - destruct Hhs as (-> & -> & ->). split; [done|]. eapply Hsame; try done.
Qed.

Lemma then_exact D i cs1 cs2 os1 os2 j pos :
  (length d <= D)%nat -> shrink_trace (served_all d early) r D {[ i := Pos 0 None ]} (cs1 ++ cs2) (os1 ++ os2) ->
  length os1 = length cs1 -> Forall no_seek cs1 ->
  follows {[ i := At 0 false ]} cs1 os1 !! j = Some (At pos true) ->
  fam_trace F (follows {[ i := At 0 false ]} cs1 os1) cs2 os2.
Proof.
  intros HD Htr Hlen Hns Hj.
  apply calm_trace in Htr as (L & t & Hca & Ht & Htr); [|done|done|].
  2: { constructor; [done|]. intros i' pos' e' Hi'. apply lookup_singleton_Some in Hi' as [_ [= <- <-]]. split; [lia|by left]. }
  assert (Hsg : as_table {[ i := Pos 0 None ]} = {[ i := At 0 false ]}) by (unfold as_table; by rewrite map_fmap_singleton). rewrite Hsg in Ht.
  rewrite <- Ht in *. destruct Hca as [HL Hpos].
  assert (HLd : L = length d).
  { rewrite as_lookup in Hj. destruct (t !! j) as [[|pos' [e|]]|] eqn:Htj; try done. destruct (Hpos _ _ _ Htj) as [_ [?|[_ ?]]]; done. }
  subst L. apply settled_trace; [|done]. constructor. intros i' pos' e' Hi'. destruct (Hpos _ _ _ Hi') as [? [?|[? _]]]; auto.
Qed.
End Settled.
