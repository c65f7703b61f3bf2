(** * What a call outside a family leaves alone (proofs) *)
From stdpp Require Import gmap.
From Coq Require Import ZifyBool.
From Verif Require Export Own StreamSpec.

Definition is_open (st : cursor) : bool := match st with At _ _ => true | Shut => false end.
Definition open_table (t : table) : handles := is_open <$> t.
Lemma open_lookup t i : open_table t !! i = Some true <-> exists pos e, t !! i = Some (At pos e).
Proof.
  unfold open_table. rewrite lookup_fmap. destruct (t !! i) as [[|pos e]|]; cbn.
  - split; [done|]. by intros (pos & e & [=]).
  - split; [eauto|done].
  - split; [done|]. by intros (pos & e & [=]).
Qed.
Lemma follow_track t c o : open_table (follow t c o) = track (open_table t) c o.
Proof.
  assert (Hl : forall i, open_table t !! i = is_open <$> t !! i) by (intros; apply lookup_fmap).
  destruct c as [i f| | | | | | |]; try done. destruct f as [|p| | | | | |]; try done; cbn; destruct o as [x| |]; try done; destruct x as [| | | | |j [e|]| | |]; try done; rewrite ?Hl.
  - destruct (t !! i) as [[|pos e]|] eqn:Hi; try done. unfold open_table. rewrite fmap_insert. cbn.
    apply insert_id. by rewrite lookup_fmap, Hi.
  - destruct (t !! i) as [[|pos e]|] eqn:Hi; try done. unfold open_table. by rewrite fmap_insert.
  - destruct (t !! i) as [[|pos e]|] eqn:Hi; try done. unfold open_table. by rewrite fmap_insert.
Qed.
Lemma follow_other t c o : (forall i f, c = Call i f -> open_table t !! i <> Some true) -> follow t c o = t.
Proof.
  intros Hn. destruct c as [i f| | | | | | |]; try done.
  specialize (Hn i f eq_refl). rewrite open_lookup in Hn.
  assert (H : forall T (a : nat -> bool -> T) (b : T), match t !! i with Some (At pos e) => a pos e | _ => b end = b).
  { intros. destruct (t !! i) as [[|pos e]|]; try done. exfalso. eauto. }
  destruct f; try done; cbn; destruct o as [[| | | | |? []| | |]| |]; try done; rewrite ?H; try done.
Qed.

Section Family.
Context {W : Type} (E : env W) (fuel : nat).
Implicit Types h : heap W.

(** A command that is not a call on an open handle of the family. *)
Lemma own_frame r c t h cmd h' o :
  go_env E -> own r c t h -> go_cmd cmd -> ~ wraps r cmd -> feasible h' ->
  (forall i f, cmd = Call i f -> t !! i <> Some true) ->
  exec E fuel h cmd = (h', o) ->
  (forall i, t !! i = Some true -> h_b h' !! i = h_b h !! i) /\
  h_c h' !! c = h_c h !! c /\ track t cmd o = t /\
  exists evs, h_log h' = h_log h ++ evs /\ calls_on r evs = [].
Proof.
  intros Hge Ho Hgo Hnw Hfe Hnot Hex.
  assert (Hcase : (forall i f, cmd <> Call i f) \/ exists i f, cmd = Call i f).
  { destruct cmd; try (left; done). right. eauto. }
  destruct Hcase as [Hnc|(i & f & ->)].
  - apply cons_effect in Hex as (evs & Hlog & Hev & Hmade); [|done].
    destruct (made_frame r c h h' _ _ Hmade (ow_c _ _ _ _ Ho)) as (bs & cs & Hbs & Hcs & Hrf & Hun).
    { intros Hw. apply Hnw. by apply wraps_iff. }
    split; [|split; [|split]].
    + intros i Hi. rewrite Hbs. apply lookup_app_l. eapply own_dom; [exact Ho|]. by rewrite Hi.
    + rewrite Hcs. apply lookup_app_l, Ho.
    + destruct cmd; try done. by destruct (Hnc i f).
    + exists evs. split; [done|]. apply calls_on_none. eapply Forall_impl; [exact Hev|].
      intros ev (_ & r' & Hr' & He) He'. apply Hnw, wraps_iff. congruence.
  - pose proof (ow_wf _ _ _ _ Ho) as Hwf. specialize (Hnot i f eq_refl).
    assert (Htr : track t (Call i f) o = t).
    { destruct f; try done; cbn; destruct o as [[| | | | |? []| | |]| |]; try done; destruct (t !! i) as [[]|]; done. }
    destruct (h_b h !! i) as [b|] eqn:Hi.
    2:{ unfold exec, cmd_prog in Hex. rewrite Hi in Hex. cbn in Hex. injection Hex as <- <-.
        split; [done|]. split; [done|]. split; [done|]. exists []. by rewrite app_nil_r. }
    assert (Hf : feasible h) by (eapply exec_feasible; [exact Hex|done]).
    destruct (call_effect E fuel h i b f h' o Hwf Hi Hgo Hf Hex) as (evs & Hlog & Heff).
    assert (Hbc : body_common b <> Some c).
    { intros Hbc. apply Hnot. apply (ow_open _ _ _ _ Ho). by exists b. }
    assert (Hne : forall j, t !! j = Some true -> i <> j) by (intros j Hj ->; done).
    assert (Hlt : forall j, t !! j = Some true -> (j < length (h_b h))%nat).
    { intros j Hj. eapply own_dom; [exact Ho|]. by rewrite Hj. }
    destruct Heff as [f h' o evs b' Hb' Hbc0 Hlc Hcs Hrd Hcc Hev|h' b' Hbc0 Hb' Hbc' Hc'|c0 h' b' Hbc0 Hb' Hbc' Hlc Hcs Hrd
                     |c0 h' b' Hbc0 Hb' Hbc' Hgt Hlc Hcs Hrd|c0 r0 h' b' err evs Hbc0 Hb' Hbc' H1 Hr0 Hlc Hcs Hrd Hcl].
    + split; [|split; [|split]]; [|by apply Hcs|done|].
      * intros j Hj. rewrite Hb'. apply list_lookup_insert_ne. auto.
      * exists evs. split; [done|]. apply calls_on_none. eapply Forall_impl; [done|]. intros ev [_ He] Heq. rewrite Heq in He.
        destruct He as (c' & Hc' & Hr'). apply (ow_uniq _ _ _ _ Ho c'); [congruence|done].
    + split; [|split; [|split]]; [|by rewrite Hc'|done|by exists []].
      intros j Hj. rewrite Hb'. apply lookup_app_l. auto.
    + split; [|split; [|split]]; [|apply Hcs; congruence|done|by exists []].
      intros j Hj. rewrite Hb'. apply lookup_app_l. auto.
    + split; [|split; [|split]]; [|apply Hcs; congruence|done|by exists []].
      intros j Hj. rewrite Hb'. apply list_lookup_insert_ne. auto.
    + split; [|split; [|split]]; [|apply Hcs; congruence|done|].
      * intros j Hj. rewrite Hb'. apply list_lookup_insert_ne. auto.
      * exists evs. split; [done|]. apply calls_on_none.
        assert (Hrr : r0 <> r). { intros ->. apply (ow_uniq _ _ _ _ Ho c0); [congruence|done]. }
        destruct (is_closer _); [destruct Hcl as [-> _]|destruct Hcl as [-> _]; constructor].
        repeat constructor. cbn. congruence.
Qed.
End Family.
