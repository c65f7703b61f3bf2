(** * Proofs of C05, C06, C07, C17, C18 *)
From stdpp Require Import gmap.
From Coq Require Import ZifyBool.
From Verif Require Import Own.

Section P.
Context {W : Type} (E : env W) (fuel : nat).
Implicit Types h : heap W.

Lemma close_is_final h i b :
  go_env E -> reaches E fuel h -> h_b h !! i = Some b ->
  exists h1 e, exec E fuel h (Call i Close) = (h1, ORet (RErr e)) /\
  forall cs h2 os, history E fuel h1 cs = (h2, os) ->
  forall f, exec E fuel h2 (Call i f) = (h2, ORet (if has_method b f then closed_answer f else RNoMethod)) /\
            exec E fuel h2 (Call closedSingleton f) = (h2, ORet (closed_answer f)).
Proof.
  intros Hge Hr Hi. apply reaches_wf in Hr as [Hwf Hf]; [|done].
  destruct (close_shuts E fuel h i b Hwf Hf Hi) as (h1 & e & b' & Hex & Hb1 & Hs & Hm).
  exists h1, e. split; [done|]. intros cs h2 os Hh f. rewrite <- Hm. split.
  - apply shut_exec; [|done]. eapply shut_history; [|done|done].
    rewrite Hb1. apply list_lookup_insert. by eapply lookup_lt_Some.
  - rewrite (shut_exec E fuel h2 closedSingleton BClosed f); [done| |done].
    eapply shut_history; [|done|exact Hh]. eapply shut_stays; [|done|exact Hex]. apply wf_0, Hwf.
Qed.

Lemma already_closed h :
  go_env E -> reaches E fuel h ->
  exec E fuel h NewClosed = (h, ORet (RBody closedSingleton None)) /\
  forall cs h2 os f, history E fuel h cs = (h2, os) ->
    exec E fuel h2 (Call closedSingleton f) = (h2, ORet (closed_answer f)).
Proof.
  intros Hge Hr. apply reaches_wf in Hr as [Hwf Hf]; [|done]. split; [done|].
  intros cs h2 os f Hh. rewrite (shut_exec E fuel h2 closedSingleton BClosed f); [done| |done].
  eapply shut_history; [|done|exact Hh]. apply wf_0, Hwf.
Qed.

Section Program.
Context (r : rid) (w : W) (cs0 : list cmd) (os0 : list (out res)) (h0 : heap W) (new : cmd) (h1 : heap W) (i : nat)
        (cs : list cmd) (h2 : heap W) (os : list (out res)).
Hypothesis Hge : go_env E.
Hypothesis Hgo : Forall go_cmd (cs0 ++ new :: cs).
Hypothesis Hnw : Forall (fun c => ~ wraps r c) (cs0 ++ cs).
Hypothesis Hw : wraps r new.
Hypothesis H0 : history E fuel (initial w) cs0 = (h0, os0).
Hypothesis H1 : exec E fuel h0 new = (h1, ORet (RBody i None)).
Hypothesis H2 : history E fuel h1 cs = (h2, os).
Hypothesis Hf : feasible h2.

Lemma closed_exactly_once :
  (~ all_closed (tracks {[ i := true ]} cs os) -> Forall not_close (calls_on r (h_log h2))) /\
  (all_closed (tracks {[ i := true ]} cs os) ->
     if is_closer (ev_caps E r)
     then exists pre err, calls_on r (h_log h2) = pre ++ [EvClose r err] /\ Forall not_close pre
     else Forall not_close (calls_on r (h_log h2))).
Proof. destruct (own_program E fuel r w cs0 os0 h0 new h1 i cs h2 os) as (c & _ & Hc); done. Qed.

Lemma close_errors j h3 o :
  exec E fuel h2 (Call j Close) = (h3, o) ->
  let t := tracks {[ i := true ]} cs os in
  (t !! j = Some true -> (exists k, k <> j /\ t !! k = Some true) -> o = ORet (RErr None)) /\
  (t !! j = Some true -> (forall k, k <> j -> t !! k <> Some true) ->
     if is_closer (ev_caps E r)
     then exists err, ev_close E (h_w h2) r = (h_w h3, err) /\ o = ORet (RErr err)
     else o = ORet (RErr None)) /\
  (t !! j = Some false -> o = ORet (RErr (Some ErrClosed))).
Proof.
  intros Hex t. destruct (own_program E fuel r w cs0 os0 h0 new h1 i cs h2 os) as (c & Ho & _); try done. fold t in Ho.
  pose proof (ow_wf _ _ _ _ Ho) as Hwf.
  assert (Hop : t !! j = Some true -> exists b, h_b h2 !! j = Some b /\ body_common b = Some c /\
            exists evs, h_log h3 = h_log h2 ++ evs /\ effect E h2 j b Close h3 o evs).
  { intros Ht. apply (ow_open _ _ _ _ Ho) in Ht as (b & Hb & Hbc). exists b. split; [done|]. split; [done|].
    by eapply call_effect. }
  assert (Hone : t !! j = Some true -> zlen (refs (h_b h2) c) = 1 <-> (forall k, k <> j -> t !! k <> Some true)).
  { intros Ht. split.
    - intros Hz k Hk Htk. apply (ow_open _ _ _ _ Ho), elem_refs in Ht, Htk.
      destruct (refs (h_b h2) c) as [|a [|a' l]]; [by apply elem_of_nil in Ht| |rewrite !zlen_cons in Hz; pose proof (zlen_nonneg l); lia].
      apply elem_of_list_singleton in Ht, Htk. congruence.
    - intros Hall. apply (ow_open _ _ _ _ Ho), elem_refs in Ht. pose proof (NoDup_refs (h_b h2) c) as Hnd.
      assert (Hin : forall a, a ∈ refs (h_b h2) c -> a = j).
      { intros a Ha. destruct (decide (a = j)); [done|]. exfalso. apply (Hall a); [done|]. by apply (ow_open _ _ _ _ Ho), elem_refs. }
      destruct (refs (h_b h2) c) as [|a [|a' l]]; [by apply elem_of_nil in Ht|done|].
      apply NoDup_cons in Hnd as [Hna _]. exfalso. apply Hna.
      assert (a = j) as -> by (apply Hin; left). assert (a' = j) as -> by (apply Hin; right; left). left. }
  split; [|split].
  - intros Ht (k & Hk & Htk). destruct (Hop Ht) as (b & Hb & Hbc & evs & _ & Heff). inversion Heff; subst; try done.
    + exfalso. match goal with H : Close = Copy \/ Close = Close -> _ |- _ => rewrite H in Hbc by auto end. done.
    + exfalso. assert (c0 = c) as -> by congruence.
      destruct (Hone Ht) as [Hz _]. by apply (Hz ltac:(assumption) k).
  - intros Ht Hall. destruct (Hop Ht) as (b & Hb & Hbc & evs & _ & Heff). pose proof (proj2 (Hone Ht) Hall) as Hz.
    inversion Heff; subst; try done.
    + exfalso. match goal with H : Close = Copy \/ Close = Close -> _ |- _ => rewrite H in Hbc by auto end. done.
    + exfalso. assert (c0 = c) as -> by congruence. lia.
    + assert (c0 = c) as -> by congruence.
      assert (r0 = r) as ->.
      { assert (Hna : ~ all_closed t) by (intros Ha; by apply (Ha j)). rewrite (ow_rd _ _ _ _ Ho Hna) in *. congruence. }
      destruct (is_closer (ev_caps E r)).
      * exists err. tauto.
      * match goal with H : _ /\ err = None /\ _ |- _ => destruct H as (_ & -> & _) end. done.
  - intros Ht. apply (ow_shut _ _ _ _ Ho) in Ht as (b & Hb & Hs).
    erewrite shut_exec in Hex by done. injection Hex as <- <-. by destruct b.
Qed.

Lemma unwrap_while_open j :
  let t := tracks {[ i := true ]} cs os in
  (t !! j = Some true -> exec E fuel h2 (Call j Unwrap) = (h2, ORet (RReader (Some r)))) /\
  (t !! j = Some false -> exec E fuel h2 (Call j Unwrap) = (h2, ORet (RReader None))).
Proof.
  intros t. destruct (own_program E fuel r w cs0 os0 h0 new h1 i cs h2 os) as (c & Ho & _); try done. fold t in Ho.
  pose proof (ow_wf _ _ _ _ Ho) as Hwf. split.
  - intros Ht. assert (Hna : ~ all_closed t) by (intros Ha; by apply (Ha j)).
    pose proof (ow_rd _ _ _ _ Ho Hna) as Hrd.
    apply (ow_open _ _ _ _ Ho) in Ht as (b & Hb & Hbc).
    assert (Hns : shut b = false).
    { pose proof (wf_b _ Hwf _ _ Hb) as Hwb. destruct b as [| | |b|b|b]; cbn in *; try done;
        match goal with |- ?x = false => destruct x; [congruence|done] end. }
    unfold exec, cmd_prog. rewrite Hb. destruct b as [| | |b|b|b]; try done; cbn in Hbc, Hns; cbn [method]; rewrite run_rreader.
    + destruct (sk_open_wf h2 j b Hwf Hb Hns) as (c' & cm & r' & Ho'). rewrite (run_sk_Unwrap _ _ _ _ _ _ _ Ho').
      pose proof (sk_c _ _ _ _ _ _ Ho'). pose proof (sk_cm _ _ _ _ _ _ Ho') as Hcm. pose proof (sk_r _ _ _ _ _ _ Ho') as Hr'.
      assert (c' = c) as -> by congruence. unfold reader_at in Hrd. rewrite Hcm in Hrd. cbn in Hrd. congruence.
    + destruct (ra_open_wf h2 j b Hwf Hb Hns) as (c' & cm & r' & Ho'). rewrite (run_ra_Unwrap _ _ _ _ _ _ _ Ho').
      pose proof (ra_c _ _ _ _ _ _ Ho'). pose proof (ra_cm _ _ _ _ _ _ Ho') as Hcm. pose proof (ra_r _ _ _ _ _ _ Ho') as Hr'.
      assert (c' = c) as -> by congruence. unfold reader_at in Hrd. rewrite Hcm in Hrd. cbn in Hrd. congruence.
    + destruct (bf_open_wf h2 j b Hwf Hb Hns) as (c' & cm & r' & m & Ho'). rewrite (run_bf_Unwrap _ _ _ _ _ _ _ _ Ho').
      destruct Ho' as [B1 B2 B3 B4 B5 B6]. destruct B5 as [L1 _ _ _ _ _ _ _ _].
      assert (c' = c) as -> by congruence. unfold reader_at in Hrd. rewrite B4 in Hrd. cbn in Hrd. congruence.
  - intros Ht. apply (ow_shut _ _ _ _ Ho) in Ht as (b & Hb & Hs).
    erewrite shut_exec by done. by destruct b.
Qed.
End Program.

Lemma unwrap_in_memory h i b :
  h_b h !! i = Some b -> match b with BClosed | BEmpty _ | BBytes _ => True | _ => False end ->
  exec E fuel h (Call i Unwrap) = (h, ORet (RReader None)).
Proof.
  intros Hi Hb. unfold exec, cmd_prog. rewrite Hi. by destruct b.
Qed.

Lemma find_len_probe w r len w' evs x :
  find_len E w r len = (w', evs, x) ->
  probe r (ev_caps E r) len evs match x with LLen l => Found l | LErr e => Failed e | LBad => NegativeSize end.
Proof.
  unfold find_len, probe. replace (len >=? 0) with (0 <=? len) by lia. gif; [intros [= <- <- <-]; done|]. gif.
  - destruct (ev_stat E w r) as [w1 [n [e|]]]; intros [= <- <- <-]; exists n; eexists; (split; [done|]); [done|].
    replace (n >=? 0) with (0 <=? n) by lia. by gif.
  - gif; [|intros [= <- <- <-]; done]. destruct (ev_seek E w r 0 SeekEnd) as [w1 [n [e|]]]; [intros [= <- <- <-]; by eexists _, _, _|].
    replace (n >=? 0) with (0 <=? n) by lia. gif; [|intros [= <- <- <-]; eexists _, _, _; split; [done|]; cbn; gif; [lia|done]].
    destruct (ev_seek E w1 r 0 SeekStart) as [w2 [n2 [e|]]]; intros [= <- <- <-]; eexists _, _, _; (split; [done|]);
      cbn; gif; try lia; eexists _, _; done.
Qed.

Lemma from_reader h r len h' o :
  in_i64 len -> exec E fuel h (NewReaderLen r len) = (h', o) ->
  exists evs x, h_log h' = h_log h ++ evs /\ probe r (ev_caps E r) len evs x /\
  match x with
  | Found l =>
      exists b c, h_b h' = h_b h ++ [b] /\ h_c h' = h_c h ++ [c] /\ o = ORet (RBody (length (h_b h)) None) /\
        exec E fuel h' (Call (length (h_b h)) BytesRemaining) = (h', ORet (RInt l)) /\
        seekable_kind b = (cp_readerat (ev_caps E r) || cp_seeker (ev_caps E r)) && (0 <=? l) /\
        (forall p off, has_method b (ReadAt p off) = seekable_kind b) /\ (forall off wh, has_method b (Seek off wh) = seekable_kind b)
  | Failed e => h_b h' = h_b h /\ h_c h' = h_c h /\ o = ORet (RFail e)
  | NegativeSize => h_b h' = h_b h /\ h_c h' = h_c h /\ o = OPanic PAssert
  end.
Proof.
  intros Hlen. unfold exec. cbn [cmd_prog]. unfold rfrom. rewrite run_bind, run_From.
  destruct (find_len E (h_w h) r len) as [[w evs] x] eqn:Hfl. pose proof (find_len_probe _ _ _ _ _ _ Hfl) as Hp.
  destruct x as [l|e|]; cbn; intros [= <- <-]; eexists evs, _; (split; [done|]); (split; [exact Hp|]); cbn; try done.
  set (bc := new_pair E (length (h_c h)) (length (h_b h)) r l). exists (fst bc), (snd bc). do 3 (split; [done|]).
  assert (Hm1 : l = -1 \/ 0 <= l).
  { clear Hp. revert Hfl. unfold find_len. gif; [intros [= <- <- <-]; right; lia|]. gif.
    - destruct (ev_stat E (h_w h) r) as [w1 [n [e|]]]; [done|]. gif; intros [= <- <- <-]. right; lia.
    - gif; [|intros [= <- <- <-]; by left]. destruct (ev_seek E (h_w h) r 0 SeekEnd) as [w1 [n [e|]]]; [done|].
      gif; [|done]. destruct (ev_seek E w1 r 0 SeekStart) as [w2 [n2 [e|]]]; intros [= <- <- <-]. right; lia. }
  assert (Hlb : forall x, (h_b h ++ [x]) !! length (h_b h) = Some x) by (intros; rewrite lookup_app_r, Nat.sub_diag by lia; done).
  assert (Hlc : forall x, (h_c h ++ [x]) !! length (h_c h) = Some x) by (intros; rewrite lookup_app_r, Nat.sub_diag by lia; done).
  unfold exec. cbn [cmd_prog set_b set_c h_b]. rewrite Hlb. unfold bc, new_pair. replace (l >=? 0) with (0 <=? l) by lia.
  destruct (cp_readerat (ev_caps E r)), (cp_seeker (ev_caps E r)), (0 <=? l) eqn:Hl; cbn [andb orb];
    (split; [|done]); cbn; rewrite Hlb; cbn; rewrite Hlc; cbn; repeat gif; cbn; repeat f_equal; lia.
Qed.

Lemma from_reader_default h r : exec E fuel h (NewReader r) = exec E fuel h (NewReaderLen r (-1)).
Proof. done. Qed.
Lemma from_reader_body h b o : h_b h !! b = Some o -> exec E fuel h (NewReaderBody b) = (h, ORet (RBody b None)).
Proof. intros Hb. unfold exec, cmd_prog. by rewrite Hb. Qed.

End P.
