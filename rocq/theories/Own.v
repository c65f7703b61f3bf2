(** * Closing: closed handles and the ownership of a Reader (proofs) *)
From stdpp Require Import gmap.
From Coq Require Import ZifyBool.
From Verif Require Export Effect.

(** A handle whose Close has happened. *)
Definition shut (b : bobj) : bool :=
  match b with
  | BClosed => true
  | BEmpty b => em_closed b
  | BBytes b => by_closed b
  | BSeeker b => sb_closed b
  | BReaderAt b => rb_closed b
  | BBuffered b => bb_closed b
  end.

Section Own.
Context {W : Type} (E : env W) (fuel : nat).
Implicit Types h : heap W.

Lemma shut_exec h i b f :
  h_b h !! i = Some b -> shut b = true ->
  exec E fuel h (Call i f) = (h, ORet (if has_method b f then closed_answer f else RNoMethod)).
Proof.
  intros Hi Hs. unfold exec, cmd_prog. rewrite Hi. destruct b as [|b|b|b|b|b]; cbn in Hs.
  - destruct f; done.
  - destruct f; cbn [method]; unfold empty_BytesRemaining, empty_Read, empty_Close, empty_Seek, empty_ReadAt, empty_WriteTo, empty_Copy, empty_Unwrap;
      cbn; rewrite ?Hi; cbn; rewrite ?Hs; done.
  - destruct f; cbn [method]; unfold bytes_BytesRemaining, bytes_Read, bytes_Close, bytes_Seek, bytes_ReadAt, bytes_WriteTo, bytes_Copy, bytes_Unwrap;
      cbn; rewrite ?Hi; cbn; rewrite ?Hs; done.
  - rewrite run_sk_closed by done. destruct f; done.
  - rewrite run_ra_closed by done. destruct f; done.
  - rewrite run_bf_closed by done. destruct f; done.
Qed.

Lemma shut_stays h i b c h' o :
  h_b h !! i = Some b -> shut b = true -> exec E fuel h c = (h', o) -> h_b h' !! i = Some b.
Proof.
  intros Hi Hs Hex. destruct (exec_frame E _ _ _ _ _ Hex) as [_ Hf].
  destruct c as [j f| | | | | | |]; try (apply Hf; done).
  destruct (decide (j = i)) as [->|Hne]; [|apply Hf; [congruence|done]].
  erewrite shut_exec in Hex by done. by injection Hex as <- <-.
Qed.
Lemma shut_history i b cs : forall h h' os,
  h_b h !! i = Some b -> shut b = true -> history E fuel h cs = (h', os) -> h_b h' !! i = Some b.
Proof.
  induction cs as [|c cs IH]; intros h h' os Hi Hs H; cbn in H; [by injection H as <- <-|].
  destruct (exec E fuel h c) as [h1 o] eqn:Hex.
  assert (Hi1 : h_b h1 !! i = Some b) by (by eapply shut_stays).
  destruct o; [destruct (history E fuel h1 cs) eqn:Hh..|]; injection H as <- <-; eauto.
Qed.

(** Close of any handle of a reachable heap returns, and leaves it shut. *)
Lemma close_shuts h i b :
  wf h -> feasible h -> h_b h !! i = Some b ->
  exists h1 e b', exec E fuel h (Call i Close) = (h1, ORet (RErr e)) /\
    h_b h1 = <[i := b']> (h_b h) /\ shut b' = true /\ (forall f, has_method b' f = has_method b f).
Proof.
  intros Hwf [Hf1 Hf2] Hi.
  destruct (shut b) eqn:Hs.
  { erewrite shut_exec by done. exists h, (Some ErrClosed), b. rewrite list_insert_id by done.
    split; [|done]. by destruct b. }
  unfold exec, cmd_prog. rewrite Hi. destruct b as [|b|b|b|b|b]; cbn in Hs; try done.
  - cbn. rewrite Hi. cbn. rewrite Hs. cbn. rewrite Hi. cbn. eexists _, _, _. done.
  - cbn. rewrite Hi. cbn. rewrite Hs. cbn. rewrite Hi. cbn. eexists _, _, _. done.
  - destruct (sk_open_wf h i b Hwf Hi Hs) as (c & cm & r & Ho). cbn [method].
    rewrite run_rerr, (run_sk_Close _ _ _ _ _ _ _ Ho). cbv zeta.
    gif; [eexists _, _, _; done|]. gif; [|eexists _, _, _; done].
    destruct (ev_close E (h_w h) r). eexists _, _, _; done.
  - destruct (ra_open_wf h i b Hwf Hi Hs) as (c & cm & r & Ho). cbn [method].
    rewrite run_rerr, (run_ra_Close _ _ _ _ _ _ _ Ho). cbv zeta.
    gif; [eexists _, _, _; done|]. gif; [|eexists _, _, _; done].
    destruct (ev_close E (h_w h) r). eexists _, _, _; done.
  - destruct (bf_open_wf h i b Hwf Hi Hs) as (c & cm & r & m & Ho). cbn [method].
    rewrite run_rerr. pose proof (run_bf_Close E h i b c cm r m Hwf Ho Hf1) as HC. cbv zeta in HC.
    destruct (zlen m >? 1).
    + destruct HC as (cm' & _ & ->). eexists _, _, _; done.
    + rewrite HC. gif; [|eexists _, _, _; done].
      destruct (ev_close E (h_w h) r). eexists _, _, _; done.
Qed.

(** ** Constructors *)
Lemma find_len_events w r len w' evs x :
  find_len E w r len = (w', evs, x) -> Forall (fun ev => not_close ev /\ ev_reader ev = Some r) evs.
Proof.
  unfold find_len. gif; [intros [= <- <- <-]; done|]. gif.
  - destruct (ev_stat E w r) as [w1 [n e]]. intros [= <- <- <-]. repeat constructor.
  - gif; [|intros [= <- <- <-]; done]. destruct (ev_seek E w r 0 SeekEnd) as [w1 [n [e|]]]; [intros [= <- <- <-]; repeat constructor|].
    gif; [|intros [= <- <- <-]; repeat constructor]. destruct (ev_seek E w1 r 0 SeekStart) as [w2 [n2 e2]]. intros [= <- <- <-]. repeat constructor.
Qed.

Definition wraps_of (c : cmd) : option rid :=
  match c with NewReader r | NewReaderLen r _ => Some r | _ => None end.
Lemma wraps_iff r c : wraps r c <-> wraps_of c = Some r.
Proof.
  unfold wraps. split.
  - intros [->|[n ->]]; done.
  - destruct c; cbn; try done; intros [= <-]; eauto.
Qed.

Definition made (h h' : heap W) (c : cmd) (o : out res) : Prop :=
  (h_b h' = h_b h /\ h_c h' = h_c h) \/
  (exists b, body_common b = None /\ h_b h' = h_b h ++ [b] /\ h_c h' = h_c h) \/
  (exists b x r, wraps_of c = Some r /\ body_common b = Some (length (h_c h)) /\ common_reader x = Some r /\ shut b = false /\
     h_b h' = h_b h ++ [b] /\ h_c h' = h_c h ++ [x] /\ o = ORet (RBody (length (h_b h)) None)).

Lemma from_made h r len h' o :
  run E h (rfrom (FromReaderAndLength r len)) = (h', o) ->
  exists evs, h_log h' = h_log h ++ evs /\ Forall (fun ev => not_close ev /\ ev_reader ev = Some r) evs /\
  ((h_b h' = h_b h /\ h_c h' = h_c h /\ forall i, o <> ORet (RBody i None)) \/
  (exists b x, body_common b = Some (length (h_c h)) /\ common_reader x = Some r /\ shut b = false /\
     h_b h' = h_b h ++ [b] /\ h_c h' = h_c h ++ [x] /\ o = ORet (RBody (length (h_b h)) None))).
Proof.
  unfold rfrom. rewrite run_bind, run_From. destruct (find_len E (h_w h) r len) as [[w evs] x] eqn:Hf.
  apply find_len_events in Hf.
  destruct x as [l|e|]; cbn; intros [= <- <-]; exists evs; (split; [done|]); (split; [done|]).
  - right. set (bc := new_pair E (length (h_c h)) (length (h_b h)) r l). exists (fst bc), (snd bc).
    split; [unfold bc, new_pair; repeat gif; done|]. split; [unfold bc, new_pair; repeat gif; done|].
    split; [unfold bc, new_pair; repeat gif; done|]. done.
  - left. done.
  - left. done.
Qed.

Lemma cons_effect h c h' o :
  (forall i f, c <> Call i f) -> exec E fuel h c = (h', o) ->
  exists evs, h_log h' = h_log h ++ evs /\
    Forall (fun ev => not_close ev /\ exists r, wraps_of c = Some r /\ ev_reader ev = Some r) evs /\
    made h h' c o.
Proof.
  intros Hnc. unfold exec.
  assert (Hsame : forall o2, exists evs, h_log h = h_log h ++ evs /\
    Forall (fun ev => not_close ev /\ exists r, wraps_of c = Some r /\ ev_reader ev = Some r) evs /\ made h h c o2).
  { intros o2. exists []. rewrite app_nil_r. split; [done|]. split; [done|]. by left. }
  assert (Hnew : forall b o2, body_common b = None -> exists evs, h_log (set_b h (h_b h ++ [b])) = h_log h ++ evs /\
    Forall (fun ev => not_close ev /\ exists r, wraps_of c = Some r /\ ev_reader ev = Some r) evs /\ made h (set_b h (h_b h ++ [b])) c o2).
  { intros b o2 Hb. exists []. cbn. rewrite app_nil_r. split; [done|]. split; [done|]. right; left. eauto. }
  assert (Hfrom : forall r len, wraps_of c = Some r -> run E h (rfrom (FromReaderAndLength r len)) = (h', o) ->
    exists evs, h_log h' = h_log h ++ evs /\
    Forall (fun ev => not_close ev /\ exists r, wraps_of c = Some r /\ ev_reader ev = Some r) evs /\ made h h' c o).
  { intros r len Hw Hr. apply from_made in Hr as (evs & H1 & H2 & H3). exists evs. split; [done|]. split.
    - eapply Forall_impl; [done|]. intros ev [? ?]. eauto.
    - destruct H3 as [(? & ? & _)|(b & x & ? & ? & ? & ? & ? & ?)]; [by left|]. right; right. exists b, x, r. done. }
  destruct c as [i f| | |d|s|r|r len|b]; cbn [cmd_prog].
  - by destruct (Hnc i f).
  - cbn. intros [= <- <-]. apply Hsame.
  - cbn. intros [= <- <-]. by apply Hnew.
  - unfold rnew, FromBytes. gif; cbn; intros [= <- <-]; by apply Hnew.
  - unfold rnew, FromString. gif; cbn; intros [= <- <-]; by apply Hnew.
  - unfold FromReader. by apply Hfrom.
  - by apply Hfrom.
  - destruct (h_b h !! b); cbn; intros [= <- <-]; apply Hsame.
Qed.

(** ** Ownership of a Reader *)
Record own (r : rid) (c : nat) (t : handles) h : Prop := {
  ow_wf : wf h;
  ow_c : (c < length (h_c h))%nat;
  ow_open : forall i, t !! i = Some true <-> refers (h_b h) c i;
  ow_shut : forall i, t !! i = Some false -> exists b, h_b h !! i = Some b /\ shut b = true;
  ow_rd : ~ all_closed t -> reader_at h c = Some r;
  ow_none : all_closed t -> reader_at h c = None;
  ow_uniq : forall c', c' <> c -> reader_at h c' <> Some r
}.

Lemma own_dom r c t h i : own r c t h -> is_Some (t !! i) -> (i < length (h_b h))%nat.
Proof.
  intros Ho [[] Hi].
  - apply (ow_open _ _ _ _ Ho) in Hi as (b & Hb & _). by eapply lookup_lt_Some.
  - apply (ow_shut _ _ _ _ Ho) in Hi as (b & Hb & _). by eapply lookup_lt_Some.
Qed.
Lemma own_fresh r c t h : own r c t h -> t !! length (h_b h) = None.
Proof.
  intros Ho. destruct (t !! length (h_b h)) eqn:He; [|done].
  assert (length (h_b h) < length (h_b h))%nat by (eapply own_dom; [done|by rewrite He]). lia.
Qed.
Lemma not_all_closed_open t : ~ all_closed t <-> exists i, t !! i = Some true.
Proof.
  split.
  - intros Hn. destruct (decide (map_Forall (fun _ b => b = false) t)) as [Hd|Hd].
    + exfalso. apply Hn. intros i Hi. apply Hd in Hi. done.
    + rewrite map_not_Forall in Hd by apply _. destruct Hd as (i & [] & Hi & Hb); [eauto|done].
  - intros (i & Hi) Ha. by apply (Ha i).
Qed.
Lemma all_closed_dec t : all_closed t \/ ~ all_closed t.
Proof.
  destruct (decide (map_Forall (fun _ b => b = false) t)) as [Hd|Hd].
  - left. intros i Hi. apply Hd in Hi. done.
  - right. rewrite map_not_Forall in Hd by apply _. destruct Hd as (i & [] & Hi & Hb); [|done]. intros Ha. by apply (Ha i).
Qed.
Lemma own_refs_nil r c t h : own r c t h -> all_closed t <-> refs (h_b h) c = [].
Proof.
  intros Ho. split.
  - intros Ha. destruct (refs (h_b h) c) as [|i l] eqn:Hr; [done|]. exfalso.
    apply (Ha i), (ow_open _ _ _ _ Ho), elem_refs. rewrite Hr. left.
  - intros Hn i Hi. apply (ow_open _ _ _ _ Ho), elem_refs in Hi. rewrite Hn in Hi. by apply elem_of_nil in Hi.
Qed.

Lemma calls_on_app r l k : calls_on r (l ++ k) = calls_on r l ++ calls_on r k.
Proof. apply filter_app. Qed.
Lemma calls_on_none r l : Forall (fun ev => ev_reader ev <> Some r) l -> calls_on r l = [].
Proof.
  induction 1 as [|ev l He Hl IH]; [done|]. unfold calls_on in *. rewrite filter_cons, decide_False by done. done.
Qed.
Lemma calls_on_Forall (P : event -> Prop) r l : Forall P l -> Forall P (calls_on r l).
Proof.
  induction 1 as [|ev l He Hl IH]; [constructor|]. unfold calls_on in *. rewrite filter_cons. destruct (decide _); [by constructor|done].
Qed.

(** One command, seen by the family owning [r]. *)
Definition own_evs (r : rid) (t t' : handles) (c : cmd) (o : out res) (evs : list event) : Prop :=
  (all_closed t -> calls_on r evs = []) /\
  (~ all_closed t' -> Forall not_close (calls_on r evs)) /\
  (~ all_closed t -> all_closed t' ->
     exists err, o = ORet (RErr err) /\
       if is_closer (ev_caps E r) then calls_on r evs = [EvClose r err] else err = None /\ calls_on r evs = []).

Lemma own_evs_none r t t' c o evs :
  calls_on r evs = [] -> (all_closed t' -> all_closed t) -> own_evs r t t' c o evs.
Proof. intros He Ha. unfold own_evs. rewrite He. split; [done|]. split; [constructor|]. tauto. Qed.

Lemma reader_at_app h h' c x :
  h_c h' = h_c h ++ x -> (c < length (h_c h))%nat -> reader_at h' c = reader_at h c.
Proof. intros He Hl. unfold reader_at. rewrite He, lookup_app_l by done. done. Qed.

Lemma track_id t c o :
  (forall i x, c <> Call i Copy \/ o <> ORet x) -> (forall i x, c <> Call i Close \/ o <> ORet x) -> track t c o = t.
Proof.
  intros H1 H2. destruct c as [i f| | | | | | |]; try done. destruct f; try done.
  - destruct o as [x| |]; [|done..]. by destruct (H2 i x).
  - destruct o as [x| |]; [|done..]. by destruct (H1 i x).
Qed.

Lemma made_frame r c h h' cmd o :
  made h h' cmd o -> (c < length (h_c h))%nat -> wraps_of cmd <> Some r ->
  exists bs cs, h_b h' = h_b h ++ bs /\ h_c h' = h_c h ++ cs /\
    (forall j, refers (h_b h') c j <-> refers (h_b h) c j) /\
    (forall c', (length (h_c h) <= c')%nat -> reader_at h' c' <> Some r).
Proof.
  intros Hmade Hlc Hnw.
  destruct Hmade as [(-> & Hc)|[(b1 & Hb1 & -> & Hc)|(b1 & x1 & r1 & Hr1 & Hb1 & Hx1 & _ & -> & Hc & _)]].
  - exists [], []. rewrite !app_nil_r. split; [done|]. split; [done|]. split; [done|].
    intros c' Hc'. unfold reader_at. rewrite Hc, lookup_ge_None_2 by done. done.
  - exists [b1], []. rewrite !app_nil_r. split; [done|]. split; [done|]. split.
    + intros j. rewrite <- !elem_refs, refs_new, decide_False, app_nil_r by congruence. done.
    + intros c' Hc'. unfold reader_at. rewrite Hc, lookup_ge_None_2 by done. done.
  - exists [b1], [x1]. split; [done|]. split; [done|]. split.
    + intros j. rewrite <- !elem_refs, refs_new, decide_False, app_nil_r; [done|]. rewrite Hb1. intros [= He]. lia.
    + intros c' Hc'. unfold reader_at. rewrite Hc, lookup_app_r by done.
      destruct (c' - length (h_c h))%nat as [|k]; cbn; [|done]. congruence.
Qed.

Lemma own_step r c t h cmd h' o :
  go_env E -> own r c t h -> go_cmd cmd -> ~ wraps r cmd -> feasible h' ->
  exec E fuel h cmd = (h', o) ->
  own r c (track t cmd o) h' /\
  exists evs, h_log h' = h_log h ++ evs /\ own_evs r t (track t cmd o) cmd o evs.
Proof.
  intros Hge Ho Hgo Hnw Hfs Hex.
  assert (Hfs0 : feasible h) by (by eapply exec_feasible).
  pose proof (ow_wf _ _ _ _ Ho) as Hwf.
  assert (Hwf' : wf h') by (by eapply exec_wf).
  assert (Hst : forall i b, h_b h !! i = Some b -> shut b = true -> h_b h' !! i = Some b) by (intros; by eapply shut_stays).
  (* a Body already closed *)
  destruct (match cmd with Call i f => match h_b h !! i with Some b => shut b | None => false end | _ => false end) eqn:Hsh.
  { destruct cmd as [i f| | | | | | |]; try done. destruct (h_b h !! i) as [b|] eqn:Hi; [|done].
    erewrite shut_exec in Hex by done. injection Hex as <- <-.
    assert (Hti : t !! i <> Some true).
    { intros Ht. apply (ow_open _ _ _ _ Ho) in Ht as (b' & Hb' & Hc').
      rewrite Hi in Hb'. injection Hb' as <-. pose proof (wf_b _ Hwf _ _ Hi) as Hwb.
      destruct b; cbn in *; try done; rewrite Hsh in Hwb; congruence. }
    assert (track t (Call i f) (ORet (if has_method b f then closed_answer f else RNoMethod)) = t) as ->.
    { unfold track. destruct f; try done; destruct b; cbn; destruct (t !! i) as [[]|]; done. }
    split; [done|]. exists []. rewrite app_nil_r. split; [done|]. by apply own_evs_none. }
  destruct cmd as [i f| | | | | | |].
  { (* a call *)
    destruct (h_b h !! i) as [b|] eqn:Hi.
    2:{ unfold exec, cmd_prog in Hex. rewrite Hi in Hex. cbn in Hex. injection Hex as <- <-.
        rewrite track_id by (intros; by right). split; [done|]. exists []. rewrite app_nil_r.
        split; [done|]. by apply own_evs_none. }
    destruct (call_effect E fuel h i b f h' o Hwf Hi Hgo Hfs0 Hex) as (evs & Hlog & Heff).
    assert (Hlen : (i < length (h_b h))%nat) by (by eapply lookup_lt_Some).
    destruct Heff as [f h' o evs b' Hb' Hbc Hlc Hcs Hrd Hcc Hev|h' b' Hbc Hb' Hbc' Hc'|c0 h' b' Hbc Hb' Hbc' Hlc Hcs Hrd
                     |c0 h' b' Hbc Hb' Hbc' Hgt Hlc Hcs Hrd|c0 r0 h' b' err evs Hbc Hb' Hbc' H1 Hr0 Hlc Hcs Hrd Hcl].
    - (* keep *)
      assert (track t (Call i f) o = t) as ->.
      { destruct f; try done; destruct o as [x| |]; try done; cbn.
        - assert (t !! i <> Some true) as Hti.
          { intros Ht. apply (ow_open _ _ _ _ Ho) in Ht as (b2 & Hb2 & Hc2).
            rewrite Hi in Hb2. injection Hb2 as <-. rewrite Hcc in Hc2 by auto. done. }
          destruct x; try done. destruct (t !! i) as [[]|]; done.
        - assert (t !! i <> Some true) as Hti.
          { intros Ht. apply (ow_open _ _ _ _ Ho) in Ht as (b2 & Hb2 & Hc2).
            rewrite Hi in Hb2. injection Hb2 as <-. rewrite Hcc in Hc2 by auto. done. }
          destruct x as [| | | | |j [e|]| | |]; try done. destruct (t !! i) as [[]|]; done. }
      split.
      + destruct Ho as [O1 O2 O3 O4 O5 O6 O7]. constructor; try done.
        * by rewrite Hlc.
        * intros j. rewrite O3, <- !elem_refs, Hb'. by erewrite refs_store_same.
        * intros j Hj. destruct (O4 j Hj) as (bj & Hbj & Hsj). exists bj. eauto.
        * rewrite Hrd. done.
        * rewrite Hrd. done.
        * intros c' Hc'. rewrite Hrd. auto.
      + exists evs. split; [done|]. split; [|split; [|tauto]].
        * intros Ha. apply calls_on_none. eapply Forall_impl; [done|]. intros ev [_ He] Heq. rewrite Heq in He.
          destruct He as (c' & Hc' & Hr'). destruct (decide (c' = c)) as [->|Hne].
          -- rewrite (ow_none _ _ _ _ Ho Ha) in Hr'. done.
          -- by apply (ow_uniq _ _ _ _ Ho c').
        * intros _. apply calls_on_Forall. eapply Forall_impl; [done|]. by intros ev [? _].
    - (* copy of an in-memory Body *)
      assert (Hti : t !! i <> Some true).
      { intros Ht. apply (ow_open _ _ _ _ Ho) in Ht as (b2 & Hb2 & Hc2). congruence. }
      assert (track t (Call i Copy) (ORet (RBody (length (h_b h)) None)) = t) as ->.
      { cbn. destruct (t !! i) as [[]|]; done. }
      assert (Hra : forall c', reader_at h' c' = reader_at h c') by (intros c'; unfold reader_at; by rewrite Hc').
      split.
      + destruct Ho as [O1 O2 O3 O4 O5 O6 O7]. constructor; try done.
        * by rewrite Hc'.
        * intros j. rewrite O3, <- !elem_refs, Hb', refs_new, decide_False, app_nil_r by congruence. done.
        * intros j Hj. destruct (O4 j Hj) as (bj & Hbj & Hsj). exists bj. eauto.
        * rewrite Hra. done.
        * rewrite Hra. done.
        * intros c'' Hc''. rewrite Hra. auto.
      + exists []. rewrite app_nil_r in *. split; [done|]. by apply own_evs_none.
    - (* copy *)
      destruct (decide (c0 = c)) as [->|Hne].
      + assert (Hti : t !! i = Some true) by (apply (ow_open _ _ _ _ Ho); by exists b).
        cbn [track]. rewrite Hti. pose proof (own_fresh _ _ _ _ Ho) as Hfr.
        assert (Hna : ~ all_closed t) by (intros Ha; by apply (Ha i)).
        assert (Hna' : ~ all_closed (<[length (h_b h) := true]> t)).
        { intros Ha. apply (Ha (length (h_b h))). apply lookup_insert. }
        split.
        * destruct Ho as [O1 O2 O3 O4 O5 O6 O7]. constructor; try done.
          -- by rewrite Hlc.
          -- intros j. rewrite <- !elem_refs, Hb', refs_new, decide_True by done.
             rewrite elem_of_app, elem_of_list_singleton, elem_refs, <- O3.
             destruct (decide (j = length (h_b h))) as [->|Hj].
             ++ rewrite lookup_insert. tauto.
             ++ rewrite lookup_insert_ne by done. tauto.
          -- intros j Hj. destruct (decide (j = length (h_b h))) as [->|Hj']; [by rewrite lookup_insert in Hj|].
             rewrite lookup_insert_ne in Hj by done. destruct (O4 j Hj) as (bj & Hbj & Hsj). exists bj. eauto.
          -- rewrite Hrd. auto.
          -- intros c'' Hc''. rewrite Hrd. auto.
        * exists []. rewrite app_nil_r in *. split; [done|]. by apply own_evs_none.
      + assert (Hti : t !! i <> Some true).
        { intros Ht. apply (ow_open _ _ _ _ Ho) in Ht as (b2 & Hb2 & Hc2). congruence. }
        assert (track t (Call i Copy) (ORet (RBody (length (h_b h)) None)) = t) as ->.
        { cbn. destruct (t !! i) as [[]|]; done. }
        split.
        * destruct Ho as [O1 O2 O3 O4 O5 O6 O7]. constructor; try done.
          -- by rewrite Hlc.
          -- intros j. rewrite O3, <- !elem_refs, Hb', refs_new, decide_False, app_nil_r by congruence. done.
          -- intros j Hj. destruct (O4 j Hj) as (bj & Hbj & Hsj). exists bj. eauto.
          -- rewrite Hrd. done.
          -- rewrite Hrd. done.
          -- intros c'' Hc''. rewrite Hrd. auto.
        * exists []. rewrite app_nil_r in *. split; [done|]. by apply own_evs_none.
    - (* close, others open *)
      destruct (decide (c0 = c)) as [->|Hne].
      + assert (Hti : t !! i = Some true) by (apply (ow_open _ _ _ _ Ho); by exists b).
        cbn [track]. rewrite Hti.
        assert (Hna : ~ all_closed t) by (intros Ha; by apply (Ha i)).
        pose proof (refs_store_none (h_b h) c i b b' Hi Hbc Hbc') as Hrs.
        pose proof (zlen_refs_del (h_b h) c i b b' Hi Hbc Hbc') as Hz.
        assert (Hop : forall j, <[i := false]> t !! j = Some true <-> refers (h_b h') c j).
        { intros j. rewrite <- elem_refs, Hb', Hrs, elem_of_list_filter, elem_refs, <- (ow_open _ _ _ _ Ho).
          destruct (decide (i = j)) as [<-|Hj]; [rewrite lookup_insert; split; [done|tauto]|].
          rewrite lookup_insert_ne by done. split; [intros; split; [congruence|done]|tauto]. }
        assert (Hna' : ~ all_closed (<[i := false]> t)).
        { destruct (refs (h_b h') c) as [|j l] eqn:Hr.
          - rewrite <- Hb', Hr in Hz. unfold zlen at 1 in Hz. cbn in Hz. lia.
          - intros Ha. apply (Ha j), Hop, elem_refs. rewrite Hr. left. }
        split.
        * destruct Ho as [O1 O2 O3 O4 O5 O6 O7]. constructor; try done.
          -- by rewrite Hlc.
          -- intros j Hj. destruct (decide (i = j)) as [<-|Hj'].
             ++ exists b'. rewrite Hb', list_lookup_insert by done. split; [done|].
                destruct (close_shuts h i b Hwf Hfs0 Hi) as (h1 & e & b1 & Hx & Hb1 & Hs1 & _).
                rewrite Hex in Hx. injection Hx as -> _.
                assert (b1 = b') as ->; [|done].
                assert (<[i:=b1]> (h_b h) !! i = <[i:=b']> (h_b h) !! i) as Heq by congruence.
                rewrite !list_lookup_insert in Heq by done. congruence.
             ++ rewrite lookup_insert_ne in Hj by done. destruct (O4 j Hj) as (bj & Hbj & Hsj). exists bj. eauto.
          -- rewrite Hrd. auto.
          -- intros c'' Hc''. rewrite Hrd. auto.
        * exists []. rewrite app_nil_r in *. split; [done|]. by apply own_evs_none.
      + assert (Hti : t !! i <> Some true).
        { intros Ht. apply (ow_open _ _ _ _ Ho) in Ht as (b2 & Hb2 & Hc2). congruence. }
        assert (track t (Call i Close) (ORet (RErr None)) = t) as ->.
        { cbn. destruct (t !! i) as [[]|]; done. }
        split.
        * destruct Ho as [O1 O2 O3 O4 O5 O6 O7]. constructor; try done.
          -- by rewrite Hlc.
          -- intros j. rewrite O3, <- !elem_refs, Hb'. erewrite refs_store_other; [done|done|congruence|congruence].
          -- intros j Hj. destruct (O4 j Hj) as (bj & Hbj & Hsj). exists bj. eauto.
          -- rewrite Hrd. done.
          -- rewrite Hrd. done.
          -- intros c'' Hc''. rewrite Hrd. auto.
        * exists []. rewrite app_nil_r in *. split; [done|]. by apply own_evs_none.
    - (* the last close *)
      destruct (decide (c0 = c)) as [->|Hne].
      + assert (Hti : t !! i = Some true) by (apply (ow_open _ _ _ _ Ho); by exists b).
        cbn [track]. rewrite Hti.
        assert (Hna : ~ all_closed t) by (intros Ha; by apply (Ha i)).
        assert (r0 = r) as -> by (rewrite (ow_rd _ _ _ _ Ho Hna) in Hr0; congruence).
        pose proof (refs_store_none (h_b h) c i b b' Hi Hbc Hbc') as Hrs.
        pose proof (zlen_refs_del (h_b h) c i b b' Hi Hbc Hbc') as Hz.
        assert (Hnil : refs (h_b h') c = []).
        { rewrite <- Hb' in Hz. destruct (refs (h_b h') c); [done|]. rewrite zlen_cons in Hz. pose proof (zlen_nonneg l). lia. }
        assert (Hop : forall j, <[i := false]> t !! j = Some true <-> refers (h_b h') c j).
        { intros j. rewrite <- elem_refs, Hb', Hrs, elem_of_list_filter, elem_refs, <- (ow_open _ _ _ _ Ho).
          destruct (decide (i = j)) as [<-|Hj]; [rewrite lookup_insert; split; [done|tauto]|].
          rewrite lookup_insert_ne by done. split; [intros; split; [congruence|done]|tauto]. }
        assert (Hna' : all_closed (<[i := false]> t)).
        { intros j Hj. apply Hop, elem_refs in Hj. rewrite Hnil in Hj. by apply elem_of_nil in Hj. }
        split.
        * destruct Ho as [O1 O2 O3 O4 O5 O6 O7]. constructor; try done.
          -- by rewrite Hlc.
          -- intros j Hj. destruct (decide (i = j)) as [<-|Hj'].
             ++ exists b'. rewrite Hb', list_lookup_insert by done. split; [done|].
                destruct (close_shuts h i b Hwf Hfs0 Hi) as (h1 & e & b1 & Hx & Hb1 & Hs1 & _).
                rewrite Hex in Hx. injection Hx as -> _.
                assert (b1 = b') as ->; [|done].
                assert (<[i:=b1]> (h_b h) !! i = <[i:=b']> (h_b h) !! i) as Heq by congruence.
                rewrite !list_lookup_insert in Heq by done. congruence.
             ++ rewrite lookup_insert_ne in Hj by done. destruct (O4 j Hj) as (bj & Hbj & Hsj). exists bj. eauto.
          -- intros c'' Hc''. unfold reader_at. rewrite Hcs by done. by apply O7.
        * exists evs. split; [done|]. split; [tauto|]. split; [tauto|]. intros _ _. exists err. split; [done|].
          destruct (is_closer (ev_caps E r)).
          -- destruct Hcl as [-> _]. unfold calls_on. rewrite filter_cons, decide_True by done. done.
          -- destruct Hcl as (-> & -> & _). done.
      + assert (Hti : t !! i <> Some true).
        { intros Ht. apply (ow_open _ _ _ _ Ho) in Ht as (b2 & Hb2 & Hc2). congruence. }
        assert (track t (Call i Close) (ORet (RErr err)) = t) as ->.
        { cbn. destruct (t !! i) as [[]|]; done. }
        assert (Hr0r : r0 <> r). { intros ->. by apply (ow_uniq _ _ _ _ Ho c0). }
        assert (Hra : reader_at h' c = reader_at h c) by (unfold reader_at; rewrite Hcs; done).
        assert (Hcalls : calls_on r evs = []).
        { apply calls_on_none. destruct (is_closer (ev_caps E r0)).
          - destruct Hcl as [-> _]. repeat constructor. cbn. congruence.
          - destruct Hcl as (-> & _). constructor. }
        split.
        * destruct Ho as [O1 O2 O3 O4 O5 O6 O7]. constructor; try done.
          -- by rewrite Hlc.
          -- intros j. rewrite O3, <- !elem_refs, Hb'. erewrite refs_store_other; [done|done|congruence|congruence].
          -- intros j Hj. destruct (O4 j Hj) as (bj & Hbj & Hsj). exists bj. eauto.
          -- rewrite Hra. done.
          -- rewrite Hra. done.
          -- intros c'' Hc''. destruct (decide (c'' = c0)) as [->|Hne'']; [by rewrite Hrd|].
             unfold reader_at. rewrite Hcs by done. by apply O7.
        * exists evs. split; [done|]. by apply own_evs_none. }
  (* constructors *)
  all: apply cons_effect in Hex as (evs & Hlog & Hev & Hmade); [|done]; cbn [track].
  all: assert (Hcalls : calls_on r evs = []) by
    (apply calls_on_none; eapply Forall_impl; [exact Hev|]; intros ev (_ & r' & Hr' & He) He';
     apply Hnw, wraps_iff; congruence).
  all: (split; [|exists evs; split; [done|]; by apply own_evs_none]).
  all: assert (Hmk := made_frame r c h h' _ _ Hmade (ow_c _ _ _ _ Ho) ltac:(by rewrite <- wraps_iff)).
  all: destruct Hmk as (bs & cs & Hbs & Hcs & Hrf & Hun);
    destruct Ho as [O1 O2 O3 O4 O5 O6 O7]; constructor; try done;
    [ rewrite Hcs, app_length; lia
    | intros j; rewrite O3, Hrf; done
    | intros j Hj; destruct (O4 j Hj) as (bj & Hbj & Hsj); exists bj; eauto
    | erewrite reader_at_app by done; done
    | erewrite reader_at_app by done; done
    | intros c' Hc'; destruct (decide (c' < length (h_c h))%nat) as [Hlt|Hge'];
      [erewrite reader_at_app by done; auto|apply Hun; lia] ].
Qed.

(** Before the constructor: nobody owns [r], nobody calls it. *)
Record unowned (r : rid) h : Prop := {
  un_wf : wf h;
  un_rd : forall c, reader_at h c <> Some r;
  un_log : calls_on r (h_log h) = []
}.
Lemma unowned_initial r w : unowned r (initial w).
Proof. constructor; [apply wf_initial|done|done]. Qed.

Lemma unowned_step r h cmd h' o :
  go_env E -> unowned r h -> go_cmd cmd -> ~ wraps r cmd -> feasible h' ->
  exec E fuel h cmd = (h', o) -> unowned r h'.
Proof.
  intros Hge [Hwf Hrd Hlg] Hgo Hnw Hfs Hex.
  assert (Hfs0 : feasible h) by (by eapply exec_feasible).
  assert (Hwf' : wf h') by (by eapply exec_wf).
  assert (Hsame : forall evs, h_log h' = h_log h ++ evs -> calls_on r evs = [] -> (forall c, reader_at h' c = reader_at h c \/ reader_at h' c <> Some r) -> unowned r h').
  { intros evs Hl He Hr. constructor; [done| |].
    - intros c. destruct (Hr c) as [->|]; auto.
    - rewrite Hl, calls_on_app, Hlg, He. done. }
  destruct cmd as [i f| | | | | | |].
  { destruct (h_b h !! i) as [b|] eqn:Hi.
    2:{ unfold exec, cmd_prog in Hex. rewrite Hi in Hex. cbn in Hex. by injection Hex as <- <-. }
    destruct (call_effect E fuel h i b f h' o Hwf Hi Hgo Hfs0 Hex) as (evs & Hlog & Heff).
    destruct Heff as [f h' o evs b' Hb' Hbc Hlc Hcs Hrd' Hcc Hev|h' b' Hbc Hb' Hbc' Hc'|c0 h' b' Hbc Hb' Hbc' Hlc Hcs Hrd'
                     |c0 h' b' Hbc Hb' Hbc' Hgt Hlc Hcs Hrd'|c0 r0 h' b' err evs Hbc Hb' Hbc' H1 Hr0 Hlc Hcs Hrd' Hcl].
    - apply (Hsame evs); [done| |intros; left; auto]. apply calls_on_none. eapply Forall_impl; [done|]. intros ev [_ He] Heq.
      rewrite Heq in He. destruct He as (c & _ & Hc). by apply (Hrd c).
    - apply (Hsame []); [done|done|]. intros c; left; unfold reader_at; by rewrite Hc'.
    - apply (Hsame []); [done|done|intros; left; auto].
    - apply (Hsame []); [done|done|intros; left; auto].
    - apply (Hsame evs); [done| |].
      + apply calls_on_none. assert (r0 <> r) by (intros ->; by apply (Hrd c0)).
        destruct (is_closer (ev_caps E r0)).
        * destruct Hcl as [-> _]. repeat constructor. cbn. congruence.
        * destruct Hcl as (-> & _). constructor.
      + intros c. destruct (decide (c = c0)) as [->|Hne]; [right; by rewrite Hrd'|left; unfold reader_at; by rewrite Hcs]. }
  all: apply cons_effect in Hex as (evs & Hlog & Hev & Hmade); [|done].
  all: assert (Hcalls : calls_on r evs = []) by
    (apply calls_on_none; eapply Forall_impl; [exact Hev|]; intros ev (_ & r' & Hr' & He) He';
     apply Hnw, wraps_iff; congruence).
  all: apply (Hsame evs); [done|done|];
    destruct Hmade as [(_ & Hc)|[(b1 & Hb1 & _ & Hc)|(b1 & x1 & r1 & Hr1 & Hb1 & Hx1 & _ & _ & Hc & _)]];
    [ intros c; left; unfold reader_at; by rewrite Hc
    | intros c; left; unfold reader_at; by rewrite Hc
    | intros c; destruct (decide (c < length (h_c h))%nat) as [Hlt|Hge'];
      [left; by eapply reader_at_app|right];
      unfold reader_at; rewrite Hc, lookup_app_r by lia;
      destruct (c - length (h_c h))%nat as [|k]; cbn; [|done];
      rewrite Hx1; intros [= ->]; apply Hnw, wraps_iff; done ].
Qed.

(** The constructor. *)
Lemma own_new r h cmd h1 i :
  go_env E -> unowned r h -> go_cmd cmd -> wraps r cmd -> feasible h1 ->
  exec E fuel h cmd = (h1, ORet (RBody i None)) ->
  i = length (h_b h) /\ own r (length (h_c h)) {[ i := true ]} h1 /\ Forall not_close (calls_on r (h_log h1)).
Proof.
  intros Hge [Hwf Hrd Hlg] Hgo Hw Hfs Hex.
  assert (Hwf' : wf h1) by (by eapply exec_wf).
  assert (exists len, exec E fuel h cmd = run E h (rfrom (FromReaderAndLength r len))) as [len Hlen].
  { destruct Hw as [->|[n ->]]; eexists; reflexivity. }
  rewrite Hlen in Hex. apply from_made in Hex as (evs & Hl & He & [(_ & _ & Hno)|(b & x & Hb & Hx & Hsb & Hbs & Hcs & [= ->])]); [by destruct (Hno i)|].
  split; [done|].
  assert (Hrc : reader_at h1 (length (h_c h)) = Some r).
  { unfold reader_at. rewrite Hcs, lookup_app_r, Nat.sub_diag by lia. done. }
  assert (Hna : ~ all_closed {[length (h_b h) := true]}).
  { intros Ha. apply (Ha (length (h_b h))). apply lookup_singleton. }
  split.
  - constructor; try done.
    + rewrite Hcs, app_length. cbn. lia.
    + intros j. rewrite <- elem_refs, Hbs, refs_new, decide_True, refs_dangling by (done || lia).
      rewrite app_nil_l, elem_of_list_singleton. split.
      * intros Hj. apply lookup_singleton_Some in Hj as [<- _]. done.
      * intros ->. apply lookup_singleton.
    + intros j Hj. apply lookup_singleton_Some in Hj as [_ Hj]. done.
    + intros c' Hc'. unfold reader_at. rewrite Hcs. destruct (decide (c' < length (h_c h))%nat) as [Hlt|Hge'].
      * rewrite lookup_app_l by done. apply (Hrd c').
      * rewrite lookup_ge_None_2; [done|]. rewrite app_length. cbn. lia.
  - rewrite Hl, calls_on_app, Hlg. apply calls_on_Forall. eapply Forall_impl; [done|]. by intros ev [? _].
Qed.

Lemma unowned_history r cs : forall h h' os,
  go_env E -> unowned r h -> Forall go_cmd cs -> Forall (fun c => ~ wraps r c) cs -> feasible h' ->
  history E fuel h cs = (h', os) -> unowned r h'.
Proof.
  induction cs as [|c cs IH]; intros h h' os Hge Hu Hgo Hnw Hf H; cbn in H; [by injection H as <- <-|].
  inversion Hgo as [|? ? Hg1 Hg2]; inversion Hnw as [|? ? Hn1 Hn2]; subst.
  destruct (exec E fuel h c) as [h1 o] eqn:Hex.
  assert (Hf1 : feasible h1).
  { destruct o; [destruct (history E fuel h1 cs) eqn:Hh..|]; injection H as <- <-; eauto using history_feasible. }
  assert (Hu1 : unowned r h1) by (by eapply unowned_step).
  destruct o; [destruct (history E fuel h1 cs) eqn:Hh..|]; injection H as <- <-; eauto.
Qed.

(** The log of the family's Reader. *)
Definition closed_once (r : rid) (t : handles) (log : list event) : Prop :=
  (~ all_closed t -> Forall not_close (calls_on r log)) /\
  (all_closed t ->
     if is_closer (ev_caps E r)
     then exists pre err, calls_on r log = pre ++ [EvClose r err] /\ Forall not_close pre
     else Forall not_close (calls_on r log)).

Lemma own_history r c cs : forall t h h' os,
  go_env E -> own r c t h -> closed_once r t (h_log h) ->
  Forall go_cmd cs -> Forall (fun c => ~ wraps r c) cs -> feasible h' ->
  history E fuel h cs = (h', os) ->
  own r c (tracks t cs os) h' /\ closed_once r (tracks t cs os) (h_log h').
Proof.
  induction cs as [|cmd cs IH]; intros t h h' os Hge Ho Hc1 Hgo Hnw Hf H; cbn in H; [by injection H as <- <-|].
  inversion Hgo as [|? ? Hg1 Hg2]; inversion Hnw as [|? ? Hn1 Hn2]; subst.
  destruct (exec E fuel h cmd) as [h1 o] eqn:Hex.
  assert (Hf1 : feasible h1).
  { destruct o; [destruct (history E fuel h1 cs) eqn:Hh..|]; injection H as <- <-; eauto using history_feasible. }
  destruct (own_step r c t h cmd h1 o) as (Ho1 & evs & Hlog & H1 & H2 & H3); try done.
  assert (Hc2 : closed_once r (track t cmd o) (h_log h1)).
  { destruct Hc1 as [C1 C2]. split.
    - intros Hn. rewrite Hlog, calls_on_app. apply Forall_app. split; [|auto].
      destruct (all_closed_dec t) as [Ha|Ha]; [|auto]. exfalso.
      apply Hn. intros i Hi.
      assert (forall j, track t cmd o !! j = Some true -> exists j', t !! j' = Some true) as Htr.
      { intros j. unfold track. destruct cmd as [k f| | | | | | |]; eauto. destruct f; eauto; destruct o as [[]| |]; eauto.
        - destruct (t !! k) as [[]|] eqn:Hk; eauto.
        - destruct err; eauto. destruct (t !! k) as [[]|] eqn:Hk; eauto. }
      apply Htr in Hi as [j' Hj']. by apply (Ha j').
    - intros Ha'. rewrite Hlog, calls_on_app. destruct (all_closed_dec t) as [Ha|Ha].
      + rewrite H1, app_nil_r by done. exact (C2 Ha).
      + destruct (H3 Ha Ha') as (err & -> & Hcl). specialize (C1 Ha). destruct (is_closer (ev_caps E r)).
        * rewrite Hcl. eauto.
        * destruct Hcl as [_ ->]. by rewrite app_nil_r. }
  destruct o; [destruct (history E fuel h1 cs) as [h2 os2] eqn:Hh..|]; injection H as <- <-; cbn [tracks].
  - by eapply IH.
  - by eapply IH.
  - destruct cs; cbn; done.
Qed.

(** Everything together: a program that wraps [r] once. *)
Lemma own_program r w cs0 os0 h0 new h1 i cs h2 os :
  go_env E -> Forall go_cmd (cs0 ++ new :: cs) -> Forall (fun c => ~ wraps r c) (cs0 ++ cs) -> wraps r new ->
  history E fuel (initial w) cs0 = (h0, os0) -> exec E fuel h0 new = (h1, ORet (RBody i None)) ->
  history E fuel h1 cs = (h2, os) -> feasible h2 ->
  exists c, own r c (tracks {[ i := true ]} cs os) h2 /\ closed_once r (tracks {[ i := true ]} cs os) (h_log h2).
Proof.
  intros Hge Hgo Hnw Hw H0 H1 H2 Hf.
  apply Forall_app in Hgo as [Hgo0 Hgo]. inversion Hgo as [|? ? Hg1 Hg2]; subst. apply Forall_app in Hnw as [Hnw0 Hnw].
  assert (Hf1 : feasible h1) by (by eapply history_feasible).
  assert (Hf0 : feasible h0) by (by eapply exec_feasible).
  assert (Hu : unowned r h0). { eapply (unowned_history r cs0 (initial w)); try done. apply unowned_initial. }
  destruct (own_new r h0 new h1 i) as (_ & Ho & Hc); try done.
  exists (length (h_c h0)). eapply own_history; try done. split; [done|].
  intros Ha. exfalso. apply (Ha i). apply lookup_singleton.
Qed.

End Own.
