(** * Proofs for a Body of a Body *)
From stdpp Require Import gmap.
From Coq Require Import ZifyBool.
From Verif Require Import NestModel.
From Verif Require Import SeekSpec SourceSpec Source Mem Own Preserve.

Ltac nb := cbn [n_low n_bad nest ev_read ev_readat ev_seek ev_close ev_stat ev_write] in *; unfold low; cbn [n_low n_bad].

Section Lower.
Context {W : Type} (E : env W) (fuel : nat) (i : nat) (b : bobj) (g : rid -> rid).
Implicit Types h : heap W.

Definition at_w h (w : W) : heap W := {| h_b := h_b h; h_c := h_c h; h_w := w; h_log := h_log h |}.

(** The lower Body is closed. *)
Definition gone h : Prop := exists b', h_b h !! i = Some b' /\ shut b' = true /\ has_method b' (Seek 0 0) = true /\ has_method b' (ReadAt [] 0) = true.

(** What is needed of the lower Body: [good] is kept, and ReadAt serves [d]. *)
Record lower (good after : heap W -> Prop) (d : bytes) (early : bool) : Prop := {
  lo_read : forall h p, good h -> exists h' n q e, exec E fuel h (Call i (Read p)) = (h', ORet (RRead n q e)) /\ good h';
  lo_readat : forall h p off, good h -> exists h' n q e,
    exec E fuel h (Call i (ReadAt p off)) = (h', ORet (RRead n q e)) /\ good h' /\
    (0 <= off -> good_read d early (Z.to_nat (Z.min off (zlen d))) p n q e);
  lo_seek : forall h off wh, good h -> in_i64 off -> exists h' n e,
    exec E fuel h (Call i (Seek off wh)) = (h', ORet (RSeek n e)) /\ good h' /\
    (off = 0 -> wh = SeekEnd -> n = zlen d /\ e = None) /\ (off = 0 -> wh = SeekStart -> e = None);
  lo_close : forall h, good h -> exists h' e, exec E fuel h (Call i Close) = (h', ORet (RErr e)) /\ after h';
  lo_gone : forall h, after h -> gone h;
  lo_after : forall h w, after h -> after (at_w h w);
  lo_len : zlen d <= max_i64;
  lo_eread : forall h n p, good h -> good (at_w h (fst (ev_read E (h_w h) (g n) p)));
  lo_ereadat : forall h n p off, good h -> good (at_w h (fst (ev_readat E (h_w h) (g n) p off)));
  lo_eseek : forall h n off wh, good h -> good (at_w h (fst (ev_seek E (h_w h) (g n) off wh)));
  lo_eclose : forall h n, good h -> good (at_w h (fst (ev_close E (h_w h) (g n))));
  lo_estat : forall h n, good h -> good (at_w h (fst (ev_stat E (h_w h) (g n))));
  lo_ewrite : forall h x p, good h -> good (at_w h (fst (ev_write E (h_w h) x p)))
}.

Definition nlive (good : heap W -> Prop) (x : nworld W) : Prop := n_bad x = false /\ good (n_low x).

Lemma nest_until good after d early : lower good after d early -> until_closed (nest E fuel i b g) 0%nat (nlive good).
Proof.
  intros L. constructor; intros [h bad].
  - intros [|r'] p [Hb Hg]; nb.
    + destruct (lo_read _ _ _ _ L h (clip p) Hg) as (h' & n & q & e & -> & Hg'). done.
    + pose proof (lo_eread _ _ _ _ L h (S r') p Hg). destruct (ev_read E (h_w h) (g (S r')) p). done.
  - intros [|r'] p off [Hb Hg]; nb.
    + destruct (lo_readat _ _ _ _ L h p off Hg) as (h' & n & q & e & -> & Hg' & _). done.
    + pose proof (lo_ereadat _ _ _ _ L h (S r') p off Hg). destruct (ev_readat E (h_w h) (g (S r')) p off). done.
  - intros [|r'] off wh [Hb Hg]; nb.
    + destruct (lo_seek _ _ _ _ L h (wrap64 off) wh Hg (wrap64_range off)) as (h' & n & e & -> & Hg' & _). done.
    + pose proof (lo_eseek _ _ _ _ L h (S r') off wh Hg). destruct (ev_seek E (h_w h) (g (S r')) off wh). done.
  - intros [|r'] [Hb Hg]; nb; [done|].
    pose proof (lo_estat _ _ _ _ L h (S r') Hg). destruct (ev_stat E (h_w h) (g (S r'))). done.
  - intros x p [Hb Hg]; nb.
    pose proof (lo_ewrite _ _ _ _ L h x p Hg). destruct (ev_write E (h_w h) x p). done.
  - intros [|r'] Hne [Hb Hg]; nb; [done|].
    pose proof (lo_eclose _ _ _ _ L h (S r') Hg). destruct (ev_close E (h_w h) (g (S r'))). done.
Qed.

Lemma nest_serves good after d early : lower good after d early -> serves_at (nest E fuel i b g) 0%nat (nlive good) d early.
Proof.
  intros L. split; [by eapply nest_until|]. intros [h bad] p off w' n q err [Hb Hg] Hoff. nb.
  destruct (lo_readat _ _ _ _ L h p off Hg) as (h' & n' & q' & e & -> & Hg' & Hgood). intros [= _ <- <- <-].
  specialize (Hgood ltac:(lia)). by rewrite Z.min_l in Hgood by lia.
Qed.
Lemma nest_past good after d early : lower good after d early -> forall w p off w' n q err, nlive good w -> zlen d <= off ->
  ev_readat (nest E fuel i b g) w 0%nat p off = (w', (n, q, err)) -> n = 0 /\ (err = Some EOF \/ err = None /\ p = []).
Proof.
  intros L [h bad] p off w' n q err [Hb Hg] Hoff. nb. pose proof (zlen_nonneg d).
  destruct (lo_readat _ _ _ _ L h p off Hg) as (h' & n' & q' & e & -> & Hg' & Hgood). intros [= _ <- <- <-].
  destruct (Hgood ltac:(lia)) as (k & -> & (Hk & _ & H2 & H3) & _). rewrite Z.min_r in * by lia. unfold zlen in *. rewrite Nat2Z.id, Nat.sub_diag in *.
  split; [lia|]. destruct p as [|x p]; [|left; apply H2; cbn; lia]. right. destruct (H3 eq_refl) as [->|(_ & ? & _)]; [done|lia].
Qed.

Lemma nest_go : go_env E -> go_env (nest E fuel i b g).
Proof.
  intros [H1 H2]. split.
  - intros x [|r]; cbn; [unfold in_i64, min_i64, max_i64; lia|]. specialize (H1 (h_w (n_low x)) (g (S r))). by destruct (ev_stat E (h_w (n_low x)) (g (S r))) as [? [? ?]].
  - intros x [|r] off wh; cbn.
    + unfold low. destruct (exec E fuel (n_low x) (Call i (Seek (wrap64 off) wh))) as [h [[]| |]]; cbn; try (unfold in_i64, min_i64, max_i64; lia). apply wrap64_range.
    + specialize (H2 (h_w (n_low x)) (g (S r)) off wh). by destruct (ev_seek E (h_w (n_low x)) (g (S r)) off wh) as [? [? ?]].
Qed.
End Lower.

(** ** A seekable Body below *)
Section Seekable.
Context {W : Type} (E : env W) (fuel : nat) (i : nat) (b : bobj) (g : rid -> rid).
Context (k : skind) (r : rid) (live : W -> Prop) (d : bytes) (early : bool) (D : nat) (c : nat).
Hypothesis Hserve : match k with KAt => serves_at E r live d early | KSeek => serves_seek E r live d early end.
Hypothesis HD : (D <= length d)%nat.
Hypothesis Hmax : Z.of_nat D <= max_i64.
Hypothesis Hg : forall n, g n <> r.
Implicit Types h : heap W.
Let dd := take D d.

Definition kgood (cnt : Z) h : Prop :=
  live (h_w h) /\ exists (e : bool) (pos : nat),
    kopen k h i c (if e then Some EOF else None) (Z.of_nat pos) r (Z.of_nat D) cnt /\ (pos <= D)%nat.

Lemma k_until : until_closed E r live.
Proof. pose proof Hserve as Hs. revert Hs. generalize k. intros []; by intros [? _]. Qed.

Lemma krd_live h p off h1 x : live (h_w h) -> krd E k r h p off = (h1, x) -> live (h_w h1).
Proof.
  intros Hl. pose proof k_until as Huc. unfold krd. destruct k.
  - unfold ra_rd. pose proof (uc_readat _ _ _ Huc (h_w h) r p off Hl). destruct (ev_readat E (h_w h) r p off) as [w [[n q] e]]. cbn in *.
    destruct (_ && _); intros [= <- _]; done.
  - unfold sk_rd. pose proof (uc_seek _ _ _ Huc (h_w h) r off SeekStart Hl) as H1. destruct (ev_seek E (h_w h) r off SeekStart) as [w [n [e|]]]; cbn in *; [by intros [= <- _]|].
    pose proof (uc_read _ _ _ Huc w r p H1). destruct (ev_read E w r p) as [w2 [[n2 q] e]]. cbn in *. destruct (_ && _); intros [= <- _]; done.
Qed.
Lemma kfetch_live h p len off h1 x : live (h_w h) -> kfetch E k r h p len off = (h1, x) -> live (h_w h1).
Proof.
  intros Hl. rewrite kfetch_eq. cbv zeta. gif; [|by intros [= <- _]].
  destruct (krd E k r h _ off) as [h2 [[[n q] e]| |]] eqn:Hk; intros [= <- _]; by eapply krd_live.
Qed.

Lemma kfetch_kept h p off :
  live (h_w h) -> (off <= D)%nat ->
  exists h1 n err, kfetch E k r h p (Z.of_nat D) (Z.of_nat off) = (h1, ORet (Z.of_nat n, filled dd off n p, err)) /\
    h_b h1 = h_b h /\ h_c h1 = h_c h /\ read_at dd early off p n err /\ live (h_w h1).
Proof.
  intros Hl Ho. destruct (kfetch_good E k r live d early D Hserve HD h p off Hl Ho) as (h1 & n & err & Hk & Hb & Hc & Hr).
  exists h1, n, err. split_and!; try done. by eapply kfetch_live.
Qed.

Lemma filled_good off p n err : (off <= D)%nat -> read_at dd early off p n err -> good_read dd early off p (Z.of_nat n) (filled dd off n p) err.
Proof.
  intros Ho Hr. exists n. split; [done|]. split; [done|]. unfold filled.
  assert (n <= length (drop off dd))%nat by (destruct Hr as (-> & _); rewrite drop_length; lia).
  rewrite take_app_le by (rewrite take_length; lia). rewrite take_take, Nat.min_id. done.
Qed.

Lemma kgood_world cnt h w : kgood cnt h -> live w -> kgood cnt (at_w h w).
Proof. intros (_ & e & pos & [H1 H2 H3 H4] & Hp) Hl. split; [done|]. exists e, pos. split; [|done]. by constructor. Qed.

Lemma k_lower cnt : lower E fuel i g (kgood cnt) (gone i) dd early.
Proof.
  pose proof k_until as Huc.
  assert (Hdd : length dd = D) by (apply take_length_le; exact HD).
  constructor.
  - intros h p (Hl & e & pos & Ho & Hpos). rewrite (k_Read E fuel _ _ _ _ _ _ _ _ _ _ Ho). destruct e; [exists h; eexists _, _, _; split; [done|]; split; [done|]; by exists true, pos|].
    destruct (kfetch_kept h p pos Hl Hpos) as (h1 & n & err & -> & Hb1 & Hc1 & Hra & Hl1). cbv zeta.
    assert (Herr : err = None \/ err = Some EOF /\ (pos + n = D)%nat).
    { destruct Hra as (H1 & H2 & H3 & H4). rewrite Hdd in *.
      destruct (decide (length p < D - pos)%nat); [left; auto|]. destruct (decide (D - pos < length p)%nat); [right; split; [auto|lia]|].
      destruct (H4 ltac:(lia)) as [->|(_ & _ & ->)]; [by left|]. right. split; [done|lia]. }
    assert (Hle : (pos + n <= D)%nat) by (destruct Hra as (-> & _); rewrite Hdd; lia).
    exists (set_b h1 (<[i := kbody k c err (Z.of_nat pos + Z.of_nat n)]> (h_b h1))), (Z.of_nat n), (filled dd pos n p), err.
    split; [destruct Herr as [->|[-> Hpn]]; [|replace (_ <? _) with false by lia]; done|].
    split; [done|]. exists (match err with Some _ => true | None => false end), (pos + n)%nat. split; [|done].
    destruct Ho as [H1 H2 H3 H4]. constructor; [|cbn; by rewrite Hc1|lia|done].
    cbn. rewrite list_lookup_insert by (rewrite Hb1; by eapply lookup_lt_Some). rewrite Nat2Z.inj_add. by destruct Herr as [->|[-> _]].
  - intros h p off (Hl & e & pos & Ho & Hpos). rewrite (k_ReadAt E fuel _ _ _ _ _ _ _ _ _ _ _ Ho). destruct (off <? 0) eqn:Hneg.
    { exists h; eexists _, _, _. split; [done|]. split; [|lia]. split; [done|]. by exists e, pos. }
    replace (Z.min off (Z.of_nat D)) with (Z.of_nat (Z.to_nat (Z.min off (Z.of_nat D)))) by lia.
    destruct (kfetch_kept h p (Z.to_nat (Z.min off (Z.of_nat D))) Hl ltac:(lia)) as (h1 & n & err & -> & Hb1 & Hc1 & Hra & Hl1).
    exists h1; eexists _, _, _. split; [done|]. split.
    { split; [done|]. exists e, pos. split; [|done]. destruct Ho as [H1 H2 H3 H4]. constructor; rewrite ?Hb1, ?Hc1; done. }
    intros Hoff. unfold zlen. rewrite Hdd. apply filled_good; [lia|done].
  - intros h off wh (Hl & e & pos & Ho & Hpos) Hin. rewrite (k_Seek E fuel _ _ _ _ _ _ _ _ _ _ _ Ho Hin).
    destruct (seek_to (Z.of_nat D) (Z.of_nat pos) off wh) as [n err] eqn:Hs.
    assert (Hn : err = None -> 0 <= n <= Z.of_nat D) by (revert Hs; unfold seek_to; repeat gif; intros [= <- <-] He; try discriminate He; lia).
    eexists _, n, err. split; [reflexivity|]. split; [|split].
    + split; [by destruct err|]. destruct Ho as [H1 H2 H3 H4]. destruct err as [er|].
      * by exists e, pos.
      * specialize (Hn eq_refl). exists false, (Z.to_nat n). split; [|lia]. constructor; [|done|lia|done].
        cbn. rewrite list_lookup_insert by (by eapply lookup_lt_Some). by rewrite Z2Nat.id by lia.
    + intros -> ->. revert Hs. unfold seek_to, SeekEnd, zlen. rewrite Hdd. cbn. repeat gif; intros [= <- <-]; try (split; [lia|done]); lia.
    + intros -> ->. revert Hs. unfold seek_to, SeekStart. cbn. repeat gif; intros [= <- <-]; try done; lia.
  - intros h (Hl & e & pos & Ho & Hpos). destruct (exec E fuel h (Call i Close)) as [h' o] eqn:Hex.
    destruct (k_Close E fuel _ _ _ _ _ _ _ _ _ _ _ Ho Hex) as (err & -> & Hb & _). exists h', err. split; [done|].
    exists (kclosed k). rewrite Hb, list_lookup_insert by (eapply lookup_lt_Some; apply Ho). by destruct k.
  - done.
  - done.
  - unfold zlen. by rewrite Hdd.
  - intros h n p H. apply kgood_world; [done|]. apply (uc_read _ _ _ Huc), H.
  - intros h n p off H. apply kgood_world; [done|]. apply (uc_readat _ _ _ Huc), H.
  - intros h n off wh H. apply kgood_world; [done|]. apply (uc_seek _ _ _ Huc), H.
  - intros h n H. apply kgood_world; [done|]. apply (uc_close _ _ _ Huc); [apply Hg|apply H].
  - intros h n H. apply kgood_world; [done|]. apply (uc_stat _ _ _ Huc), H.
  - intros h x p H. apply kgood_world; [done|]. apply (uc_write _ _ _ Huc), H.
Qed.
End Seekable.

(** ** A Body in memory below *)
Section Memory.
Context {W : Type} (E : env W) (fuel : nat) (i : nat) (b : bobj) (g : rid -> rid).
Context (F : family).
Implicit Types h : heap W.

Definition mgood h : Prop := exists pos e o, h_b h !! i = Some o /\ mem_rel F (At pos e) o.

Lemma m_post h i' o st f : h_b h !! i' = Some o -> mem_rel F st o -> seek_in f ->
  mem_post F h i' st f (fst (exec E fuel h (Call i' f))) (snd (exec E fuel h (Call i' f))).
Proof.
  intros Ho Hr Hgo. unfold exec. cbn [cmd_prog]. rewrite Ho.
  assert (Hp : let '(h', out) := run E h (method fuel o i' f) in mem_post F h i' st f h' out).
  { destruct (fam_flavour F) eqn:HF; [by eapply mem_empty|by eapply mem_bytes|]. unfold mem_rel in Hr. by rewrite HF in Hr. }
  by destruct (run E h (method fuel o i' f)).
Qed.

Lemma m_exec h f : mgood h -> seek_in f -> (forall w, f <> WriteTo w) -> f <> Close ->
  exists h' x pos e st', exec E fuel h (Call i f) = (h', ORet x) /\ mgood h' /\ (pos <= length (fam_data F))%nat /\ ideal F (At pos e) f st' x.
Proof.
  intros (pos & e & o & Ho & Hr) Hgo Hw Hc. pose proof (m_post h i o (At pos e) f Ho Hr Hgo) as Hp.
  destruct (exec E fuel h (Call i f)) as [h' [x|pn|]]; cbn [fst snd mem_post] in Hp.
  2: { destruct Hp as [[w Hf] _]. by destruct (Hw w). }
  2: done.
  destruct Hp as (st' & Hid & (o' & Ho' & Hr') & _). exists h', x, pos, e, st'. split; [done|]. split_and!; try done.
  - destruct st' as [|pos' e']; [|by exists pos', e', o'].
    exfalso. destruct f; cbn in Hid; try (by destruct Hid); try done.
    + destruct e; [by destruct Hid|]. by destruct Hid as (? & ? & ? & ? & ?).
    + destruct (seek_to _ _ _ _) as [? []]; by destruct Hid.
    + by destruct (Hw w).
  - unfold mem_rel in Hr. destruct (fam_flavour F); [|apply Hr|done]. destruct Hr as (_ & -> & _). lia.
Qed.

Lemma m_lower h0 : mgood h0 -> lower E fuel i g mgood (gone i) (fam_data F) false.
Proof.
  intros H0.
  assert (He : is_early (fam_flavour F) = false /\ zlen (fam_data F) <= max_i64).
  { destruct H0 as (pos & e & o & _ & Hr). unfold mem_rel in Hr. destruct (fam_flavour F) eqn:HF; cbn; try done.
    - destruct Hr as [-> _]. split; [done|]. unfold zlen, max_i64. cbn. lia.
    - by destruct Hr. }
  destruct He as [He Hmax]. clear H0 h0.
  constructor; try done.
  - intros h p Hg'. destruct (m_exec h (Read p) Hg') as (h' & x & pos & e & st' & Hx & Hg2 & _ & Hid); try done.
    rewrite Hx. cbn in Hid. destruct e; [destruct Hid as [_ ->]|destruct Hid as (k & err & _ & -> & _)]; by eexists _, _, _, _.
  - intros h p off Hg'. destruct (m_exec h (ReadAt p off) Hg') as (h' & x & pos & e & st' & Hx & Hg2 & _ & Hid); try done.
    rewrite Hx. cbn [ideal] in Hid. destruct Hid as [_ Hid]. destruct ((off <? 0) && _) eqn:Hneg.
    + subst x. eexists _, _, _, _. split; [done|]. split; [done|]. intros. destruct (off <? 0) eqn:?; [lia|done].
    + destruct Hid as (n & err & Hra & ->). eexists _, _, _, _. split; [done|]. split; [done|].
      intros Hoff. unfold zlen. rewrite He in Hra.
      exists n. split; [done|]. split; [done|]. unfold filled.
      assert (n <= length (drop (Z.to_nat (Z.min off (Z.of_nat (length (fam_data F))))) (fam_data F)))%nat by (destruct Hra as (-> & _); rewrite drop_length; lia).
      rewrite take_app_le by (rewrite take_length; lia). rewrite take_take, Nat.min_id. done.
  - intros h off wh Hg' Hin. destruct (m_exec h (Seek off wh) Hg') as (h' & x & pos & e & st' & Hx & Hg2 & Hpos & Hid); try done.
    rewrite Hx. cbn [ideal] in Hid. unfold zlen in *.
    destruct (seek_to (Z.of_nat (length (fam_data F))) (Z.of_nat pos) off wh) as [n err] eqn:Hs. destruct Hid as [-> _].
    eexists _, _, _. split; [done|]. split; [done|]. split.
    + intros -> ->. revert Hs. unfold seek_to, SeekEnd. cbn. repeat gif; intros [= <- <-]; try (split; [lia|done]); lia.
    + intros -> ->. revert Hs. unfold seek_to, SeekStart. cbn. repeat gif; intros [= <- <-]; try done; lia.
  - intros h (pos & e & o & Ho & Hr). pose proof (m_post h i o (At pos e) Close Ho Hr I) as Hp.
    destruct (exec E fuel h (Call i Close)) as [h' [x|pn|]]; cbn [fst snd mem_post] in Hp; [|by destruct Hp as [[? ?] _]|done].
    destruct Hp as (st' & [-> (err & -> & _)] & (o' & Ho' & Hr') & _). exists h', err. split; [done|]. exists o'. split; [done|].
    unfold mem_rel in Hr'. destruct (fam_flavour F); [|..|done].
    + by destruct Hr' as (_ & ? & ->).
    + by destruct Hr' as (_ & ? & ? & ? & ->).
Qed.

(** A handle of the family stays one. *)
Lemma m_keeps h c h' o st ob :
  go_cmd c -> h_b h !! i = Some ob -> mem_rel F st ob -> exec E fuel h c = (h', o) ->
  exists st' ob', h_b h' !! i = Some ob' /\ mem_rel F st' ob'.
Proof.
  intros Hgo Hi Hr Hex.
  destruct (match c with Call j f => if decide (j = i) then Some f else None | _ => None end) as [f|] eqn:Hc.
  - assert (c = Call i f) as -> by (destruct c; try done; case_decide; congruence).
    pose proof (m_post h i ob st f Hi Hr (go_seek_in _ Hgo)) as Hp. rewrite Hex in Hp. destruct o; cbn in Hp.
    + destruct Hp as (st' & _ & (o' & H1 & H2) & _). eauto.
    + destruct Hp as [_ ->]. eauto.
    + done.
  - exists st, ob. split; [|done]. eapply exec_frame; [exact Hex| |done].
    intros f ->. by rewrite decide_True in Hc.
Qed.
End Memory.
