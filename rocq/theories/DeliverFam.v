(** * What Serve delivers: Bodies in memory and over seekable Readers (proofs) *)
From stdpp Require Import gmap.
From Coq Require Import ZifyBool.
From Verif Require Import RespFacts DeliverSpec Post Quiet Preserve ServeProofs WriterProofs ServeMain Own Mem Source Stream HeapRun Deliver.

(** ** The bytes a handle has still to give *)
Definition left (d : bytes) (st : cursor) : option bytes :=
  match st with Shut => None | At pos ended => Some (if ended then [] else drop pos d) end.
Lemma left_read (F : family) pos e p st' x : (pos <= length (fam_data F))%nat -> ideal F (At pos e) (Read p) st' x ->
  exists n q err R', x = RRead (Z.of_nat n) q err /\ (n <= length p)%nat /\ (if e then [] else drop pos (fam_data F)) = take n q ++ R' /\
    left (fam_data F) st' = Some R' /\ (err = None /\ n = length p \/ err = Some EOF /\ R' = []).
Proof.
  intros Hpos. cbn [ideal]. destruct e.
  { intros [-> ->]. exists 0%nat, p, (Some EOF), []. split; [done|]. split; [lia|]. split; [by rewrite take_0|]. split; [done|]. by right. }
  set (d := fam_data F) in *. intros (k & err & (Hk & H1 & H2 & H3) & -> & ->). cbn [left].
  exists k, (filled d pos k p), err, (if is_some_err err then [] else drop (pos + k) d). split; [done|]. split; [lia|].
  assert (Hk2 : (k <= length d - pos)%nat) by lia.
  assert (Ht : take k (filled d pos k p) = take k (drop pos d)).
  { unfold filled. rewrite take_app_le by (rewrite take_length, drop_length; lia). by rewrite take_take, Nat.min_id. }
  rewrite Ht. split.
  - destruct err as [e|]; cbn.
    + assert (Hkk : (length d - pos <= length p)%nat) by (destruct (decide (length p < length d - pos)%nat) as [Hlt|]; [discriminate (H1 Hlt)|lia]).
      rewrite app_nil_r, take_ge; [done|]. rewrite drop_length. lia.
    + by rewrite <- drop_drop, take_drop.
  - split; [done|]. destruct err as [e|]; cbn.
    + right. split; [|done]. destruct (decide (length d - pos < length p)%nat) as [Hlt|Hge]; [by apply H2|].
      destruct (decide (length p < length d - pos)%nat) as [Hlt|Hge2]; [discriminate (H1 Hlt)|].
      destruct (H3 ltac:(lia)) as [?|(_ & _ & ?)]; done.
    + left. split; [done|]. destruct (decide (length d - pos < length p)%nat) as [Hlt|Hge]; [by specialize (H2 Hlt)|]. lia.
Qed.

Section Fam.
Context {V : Type} (U : uenv V) (fuel : nat) (vR : V -> V -> Prop) (wt : bool) (F : family) (I : table -> heap (wst V) -> Prop).
Notation E := (wenv U).
Notation d := (fam_data F).
Definition fam_inv (T : gmap nat bytes) (h : heap (wst V)) : Prop :=
  exists t, I t h /\ forall i R, T !! i = Some R -> exists st, t !! i = Some st /\ left d st = Some R.
Hypothesis Hkind : forall t h i pos e, I t h -> t !! i = Some (At pos e) ->
  (pos <= length d)%nat /\ exists b, h_b h !! i = Some b /\ is_WriterTo b = wt /\ shut b = false.
Hypothesis Hworld : forall t h w, I t h -> vR (v_v (h_w h)) (v_v w) -> I t (heap_w h w).
Hypothesis Hstep : forall t h i pos e f h' o, I t h -> t !! i = Some (At pos e) -> go_op f -> (forall w, f <> WriteTo w) ->
  exec E fuel h (Call i f) = (h', o) -> feasible h' -> exists x t', o = ORet x /\ fam_step F t i f t' x /\ I t' h'.
Hypothesis Hwrite : forall t h i pos (e : bool) R k w', wt = true -> I t h -> t !! i = Some (At pos e) -> R = (if e then [] else drop pos d) ->
  any_Write U k R (h_w h) = (w', inl (zlen R, None)) -> vR (v_v (h_w h)) (v_v w') ->
  exists h' e' pos', exec E fuel h (Call i (WriteTo k)) = (h', ORet (RWriteTo (zlen R) None)) /\
    I (<[i := At pos' e']> t) h' /\ left d (At pos' e') = Some [] /\ h_w h' = if e then h_w h else w'.

Lemma fam_put (T : gmap nat bytes) (t : table) i st R : (forall i R, T !! i = Some R -> exists st, t !! i = Some st /\ left d st = Some R) ->
  left d st = Some R -> forall j R', <[i := R]> T !! j = Some R' -> exists st', <[i := st]> t !! j = Some st' /\ left d st' = Some R'.
Proof.
  intros HT Hst j R'. destruct (decide (i = j)) as [<-|Hne].
  - rewrite !lookup_insert. intros [= <-]. eauto.
  - rewrite !lookup_insert_ne by done. apply HT.
Qed.
Lemma fam_flow : no_hazard U -> flow U fuel vR False wt fam_inv.
Proof.
  intros Hsafe. constructor; [exact Hsafe|..].
  - intros T h i R (t & HI & HT) Hi. destruct (HT i R Hi) as ([|pos e] & Ht & Hl); [done|]. by destruct (Hkind _ _ _ _ _ HI Ht).
  - intros T h w (t & HI & HT) Hv. exists t. split; [by apply Hworld|done].
  - intros T h i R p h' o (t & HI & HT) Hi Hp Hex Hf. destruct (HT i R Hi) as ([|pos e] & Ht & Hl); [done|].
    destruct (Hkind _ _ _ _ _ HI Ht) as [Hpos _].
    destruct (Hstep t h i pos e (Read p) h' o HI Ht Hp ltac:(done) Hex Hf) as (x & t' & -> & (st & st' & Hst & Hid & Ht') & HI').
    rewrite Ht in Hst. injection Hst as <-. destruct (left_read F pos e p st' x Hpos Hid) as (n & q & err & R' & -> & Hn & HR & Hl' & He).
    cbn in Hl. injection Hl as <-. right. exists n, q, err, R'. split; [done|]. split; [done|]. split; [done|]. split; [|done].
    exists t'. split; [done|]. subst t'. by apply fam_put.
  - intros T h i R k w' Hwt (t & HI & HT) Hi Hw Hv. destruct (HT i R Hi) as ([|pos e] & Ht & Hl); [done|]. cbn in Hl. injection Hl as Hl.
    destruct (Hwrite _ _ _ _ _ R k w' Hwt HI Ht (eq_sym Hl) Hw Hv) as (h' & e' & pos' & Hex & HI' & Hl' & Hw').
    exists h'. split; [done|]. split; [|destruct e; [right; by split|by left]]. exists (<[i := At pos' e']> t). split; [done|]. by apply fam_put.
  - intros T h i R h' o (t & HI & HT) Hi Hex Hf. destruct (HT i R Hi) as ([|pos e] & Ht & Hl); [done|].
    destruct (Hstep t h i pos e Close h' o HI Ht Logic.I ltac:(done) Hex Hf) as (x & t' & -> & (st & st' & Hst & Hid & Ht') & HI').
    rewrite Ht in Hst. injection Hst as <-. cbn [ideal] in Hid. destruct Hid as (-> & err & -> & _). exists err. split; [done|]. exists t'. split; [done|].
    intros j R'. subst t'. destruct (decide (i = j)) as [<-|Hne]; [by rewrite lookup_delete|]. rewrite lookup_delete_ne, lookup_insert_ne by done. apply HT.
  - intros T h i R h' o (t & HI & HT) Hi Hex Hf. destruct (HT i R Hi) as ([|pos e] & Ht & Hl); [done|].
    destruct (Hstep t h i pos e Copy h' o HI Ht Logic.I ltac:(done) Hex Hf) as (x & t' & -> & (st & st' & Hst & Hid & Ht') & HI').
    rewrite Ht in Hst. injection Hst as <-. cbn [ideal] in Hid. destruct Hid as (-> & j & ->). destruct Ht' as [Hj ->]. exists j. split; [done|]. split.
    + destruct (T !! j) as [R'|] eqn:Hj'; [|done]. destruct (HT j R' Hj') as (st & Hst & _). congruence.
    + exists (<[j := At pos e]> t). split; [done|]. by apply fam_put.
Qed.
End Fam.

(** ** Bytes in memory *)
Definition bytes_family (d : bytes) : family := {| fam_flavour := FBytes; fam_data := d |}.
Section MemFlow.
Context {V : Type} (U : uenv V) (fuel : nat) (d : bytes).
Notation E := (wenv U).
Notation F := (bytes_family d).
Lemma mem_step t h i pos e f h' o : mem_inv F t h -> t !! i = Some (At pos e) -> go_op f -> (forall w, f <> WriteTo w) ->
  exec E fuel h (Call i f) = (h', o) -> exists x t', o = ORet x /\ fam_step F t i f t' x /\ mem_inv F t' h'.
Proof.
  intros HI Hi Hgo Hnw Hex. destruct (HI i _ Hi) as (ob & Hob & Hrel). pose proof (exec_frame E _ _ _ _ _ Hex) as [Hlen Hfr].
  assert (Hpost : mem_post F h i (At pos e) f h' o).
  { unfold exec, cmd_prog in Hex. rewrite Hob in Hex. pose proof (mem_bytes E fuel h i F (At pos e) ob f eq_refl Hob Hrel (go_seek_in _ Hgo)) as H. by rewrite Hex in H. }
  assert (Hoth : forall j st', j <> i -> t !! j = Some st' -> exists o, h_b h' !! j = Some o /\ mem_rel F st' o).
  { intros j st' Hj Ht. destruct (HI j st' Ht) as (oj & Hoj & Hrj). exists oj. split; [|done]. apply Hfr; [congruence|done]. }
  destruct o as [x|ex|]; cbn [mem_post] in Hpost; [|by destruct Hpost as [[w Hw] _]; destruct (Hnw w)|done].
  destruct Hpost as (st' & Hid & (o' & Ho' & Hr') & Hcopy). exists x.
  destruct (match f, x with Copy, RBody j _ => Some j | _, _ => None end) as [j|] eqn:Hcp.
  - destruct f; try done. destruct x; try done. injection Hcp as ->. destruct Hcopy as (-> & -> & o'' & Ho'' & Hr'').
    assert (Hfresh : t !! length (h_b h) = None).
    { destruct (t !! length (h_b h)) eqn:Ht; [|done]. destruct (HI _ _ Ht) as (? & Hl & _). apply lookup_lt_Some in Hl. lia. }
    exists (<[length (h_b h) := At pos e]> t). split; [done|]. split; [by exists (At pos e), (At pos e)|].
    intros j st Hj. destruct (decide (j = length (h_b h))) as [->|Hne]; [rewrite lookup_insert in Hj; injection Hj as <-; eauto|].
    rewrite lookup_insert_ne in Hj by done. destruct (decide (j = i)) as [->|Hni]; [|by eapply Hoth]. rewrite Hi in Hj. injection Hj as <-. eauto.
  - exists (<[i := st']> t). split; [done|]. split.
    { exists (At pos e), st'. split; [done|]. split; [done|]. destruct f, x; done. }
    intros j stj Hj. destruct (decide (j = i)) as [->|Hni]; [rewrite lookup_insert in Hj; injection Hj as <-; eauto|].
    rewrite lookup_insert_ne in Hj by done. by eapply Hoth.
Qed.
Lemma mem_flow : no_hazard U -> flow U fuel (fun _ _ => True) False true (fam_inv F (mem_inv F)).
Proof.
  intros Hsafe. apply fam_flow; [..|exact Hsafe].
  - intros t h i pos e HI Hi. destruct (HI i _ Hi) as (ob & Hob & Hrel). cbn in Hrel. destruct Hrel as (Hd & Hpos & ->). split; [done|]. eauto.
  - intros t h w HI _. exact HI.
  - intros. by eapply mem_step.
  - intros t h i pos e R k w' _ HI Hi HR Hw _. destruct (HI i _ Hi) as (ob & Hob & Hrel). cbn in Hrel. destruct Hrel as (Hd & Hpos & ->).
    assert (Hput : forall (h' : heap (wst V)) pos' e', (pos' <= length d)%nat ->
      h_b h' = <[i := BBytes {| by_data := d; by_offset := Z.of_nat pos'; by_eof := e'; by_closed := false |}]> (h_b h) ->
      mem_inv F (<[i := At pos' e']> t) h').
    { intros h' pos' e' Hp Hh j st Hj. rewrite Hh. destruct (decide (i = j)) as [<-|Hne].
      - rewrite lookup_insert in Hj. injection Hj as <-. rewrite list_lookup_insert by (by eapply lookup_lt_Some). eexists. split; [done|]. cbn. done.
      - rewrite lookup_insert_ne in Hj by done. rewrite list_lookup_insert_ne by done. by apply HI. }
    unfold exec, cmd_prog. rewrite Hob. cbn [method]. unfold bytes_WriteTo. destruct e.
    + subst R. exists h, true, pos. split.
      { cbn. rewrite Hob. done. }
      split; [|done]. apply Hput; [done|]. by rewrite list_insert_id.
    + subst R. cbn [fam_data bytes_family] in *. assert (Hs : slice d (Z.of_nat pos) (zlen d) = Some (drop pos d)).
      { rewrite slice_ok by (unfold zlen; lia). f_equal. rewrite Nat2Z.id. apply take_ge. rewrite drop_length. unfold zlen. lia. }
      assert (Hz : zlen (drop pos d) = zlen d - Z.of_nat pos) by (unfold zlen; rewrite drop_length; lia).
      eexists _, true, (length d). split.
      * cbn. rewrite Hob. cbn. rewrite Hs. cbn. rewrite Hw. cbn. replace (zlen (drop pos d) >=? 0) with true by (unfold zlen; lia). cbn.
        replace (zlen (drop pos d) <=? zlen d - Z.of_nat pos) with true by lia. cbn. rewrite Hob. cbn. reflexivity.
      * split; [|done]. cbn. apply Hput; [done|]. cbn. do 2 f_equal. rewrite Hz. unfold zlen. f_equal. lia.
Qed.
End MemFlow.
