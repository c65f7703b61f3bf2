(** * Proofs of C46 and C48: BytesRemaining and the limits of the counters *)
From stdpp Require Import gmap.
From Coq Require Import ZifyBool.
From Verif Require Import Own ProofsOwn Witness.

Section Limits.
Context {W : Type} (E : env W) (fuel : nat).
Implicit Types h : heap W.

Lemma remaining_bounds h i b :
  go_env E -> reaches E fuel h -> h_b h !! i = Some b -> (forall x, b <> BSeeker x) ->
  exists z, exec E fuel h (Call i BytesRemaining) = (h, ORet (RInt z)) /\
    (0 <= z \/ z = -1 /\ exists x, b = BBuffered x).
Proof.
  intros Hge Hr Hi Hns. apply reaches_wf in Hr as [Hwf Hf]; [|done].
  destruct (shut b) eqn:Hsh.
  { rewrite (shut_exec E fuel h i b _ Hi Hsh). exists 0. split; [by destruct b|]. lia. }
  unfold exec. cbn [cmd_prog]. rewrite Hi. destruct b as [|b|b|b|b|b]; cbn in Hsh; cbn [method]; [done|..].
  - exists 0. split; [done|lia].
  - pose proof (wf_b _ Hwf _ _ Hi) as [Hb1 Hb2]. unfold bytes_BytesRemaining. rs. rewrite Hsh. eexists. split; [done|lia].
  - by destruct (Hns b).
  - destruct (ra_open_wf h i b Hwf Hi Hsh) as (c & cm & r & Ho). rewrite run_rint, (run_ra_BytesRemaining _ _ _ _ _ _ _ Ho).
    eexists. split; [done|lia].
  - destruct (bf_open_wf h i b Hwf Hi Hsh) as (c & cm & r & m & Ho). rewrite run_rint, (run_bf_BytesRemaining _ _ _ _ _ _ _ _ Ho).
    pose proof (bf_member_self _ _ _ _ _ _ _ Ho) as [Hin Hself].
    destruct Ho as [bf_b0 bf_ncl0 bf_c0 bf_cm0 bf_live0 bf_eof0]. destruct bf_live0 as [L1 L2 L3 L4 L5 L6 L7 L8 L9].
    eexists. split; [done|]. destruct (bc_length cm <? 0) eqn:Hl; [right; eauto|]. destruct (bb_eof b); [lia|].
    specialize (L5 _ Hin). lia.
Qed.

Lemma reader_stays_open (r : rid) (w : W) cs0 os0 h0 new h1 i cs h2 os j k h3 o :
  go_env E -> Forall go_cmd (cs0 ++ new :: cs) -> Forall (fun c => ~ wraps r c) (cs0 ++ cs) -> wraps r new ->
  history E fuel (initial w) cs0 = (h0, os0) -> exec E fuel h0 new = (h1, ORet (RBody i None)) ->
  history E fuel h1 cs = (h2, os) ->
  exec E fuel h2 (Call j Close) = (h3, o) -> feasible h3 ->
  k <> j -> tracks {[ i := true ]} cs os !! k = Some true ->
  Forall not_close (calls_on r (h_log h3)) /\
  exec E fuel h3 (Call k Unwrap) = (h3, ORet (RReader (Some r))).
Proof.
  intros Hge Hgo Hnw Hw H0 H1 H2 Hex Hf Hk Ht.
  assert (Hf2 : feasible h2) by by eapply exec_feasible.
  destruct (own_program E fuel r w cs0 os0 h0 new h1 i cs h2 os) as (c & Ho & Hcl); try done.
  set (t := tracks _ _ _) in *.
  destruct (own_step E fuel r c t h2 (Call j Close) h3 o) as (Ho3 & evs & Hlog & He1 & He2 & He3); try done.
  { intros [|[n ?]]; done. }
  assert (Ht' : track t (Call j Close) o !! k = Some true).
  { cbn. destruct o as [[]| |]; try done. destruct (t !! j) as [[]|]; try done. rewrite lookup_insert_ne by congruence. done. }
  assert (Hna : ~ all_closed (track t (Call j Close) o)) by (intros Ha; by apply (Ha k)).
  assert (Hna0 : ~ all_closed t) by (intros Ha; by apply (Ha k)).
  split.
  { rewrite Hlog, calls_on_app. apply Forall_app. split; [by apply Hcl|by apply He2]. }
  pose proof (ow_wf _ _ _ _ Ho3) as Hwf3.
  pose proof (ow_rd _ _ _ _ Ho3 Hna) as Hrd.
  apply (ow_open _ _ _ _ Ho3) in Ht' as (b & Hb & Hbc).
  destruct (shut b) eqn:Hsh.
  { exfalso. pose proof (wf_b _ Hwf3 _ _ Hb) as Hwb. destruct b as [|b|b|b|b|b]; cbn in *; try done; rewrite Hsh in Hwb; naive_solver. }
  unfold exec. cbn [cmd_prog]. rewrite Hb. unfold reader_at in Hrd.
  destruct b as [|b|b|b|b|b]; cbn in Hsh, Hbc; cbn [method]; try done.
  - destruct (sk_open_wf h3 k b Hwf3 Hb Hsh) as (c' & cm & r' & Hop). rewrite run_rreader, (run_sk_Unwrap _ _ _ _ _ _ _ Hop).
    destruct Hop as [sk_b0 sk_ncl0 sk_c0 sk_cm0 sk_r0 sk_off0 sk_len0]. rewrite Hbc in sk_c0. injection sk_c0 as <-.
    rewrite sk_cm0 in Hrd. cbn in Hrd. congruence.
  - destruct (ra_open_wf h3 k b Hwf3 Hb Hsh) as (c' & cm & r' & Hop). rewrite run_rreader, (run_ra_Unwrap _ _ _ _ _ _ _ Hop).
    destruct Hop as [ra_b0 ra_ncl0 ra_c0 ra_cm0 ra_r0 ra_at0 ra_off0 ra_len0]. rewrite Hbc in ra_c0. injection ra_c0 as <-.
    rewrite ra_cm0 in Hrd. cbn in Hrd. congruence.
  - destruct (bf_open_wf h3 k b Hwf3 Hb Hsh) as (c' & cm & r' & m & Hop). rewrite run_rreader, (run_bf_Unwrap _ _ _ _ _ _ _ _ Hop).
    destruct Hop as [bf_b0 bf_ncl0 bf_c0 bf_cm0 bf_live0 bf_eof0]. rewrite Hbc in bf_c0. injection bf_c0 as <-.
    rewrite bf_cm0 in Hrd. cbn in Hrd. destruct bf_live0. congruence.
Qed.
End Limits.

(** ** More than 2^31 copies of a ReaderAt Body *)
Section Many.
Let E := demo [hello random_access 4].
Let body := BReaderAt {| rb_common := Some 0%nat; rb_err := None; rb_offset := 0; rb_closed := false |}.
Let common (n : Z) := CReaderAt {| rc_r := Some 0%nat; rc_at := Some 0%nat; rc_length := 11; rc_refcnt := n |}.
Let log := [EvSeek 0 0 SeekEnd 11 None; EvSeek 0 0 SeekStart 0 None].
Let after (k : nat) : heap (list nat) :=
  {| h_b := BClosed :: body :: replicate k body; h_c := [common (wrap32 (Z.of_nat k + 1))]; h_w := [0%nat]; h_log := log |}.

Lemma many_copy k : exec E 0 (after k) (Call 1 Copy) = (after (S k), ORet (RBody (S (S k)) None)).
Proof.
  assert (Hl : replicate k body ++ [body] = body :: replicate k body).
  { change (replicate k body ++ replicate 1 body = body :: replicate k body).
    rewrite <- replicate_add. rewrite Nat.add_comm. done. }
  assert (Hw : wrap32 (wrap32 (Z.of_nat k + 1) + 1) = wrap32 (Z.of_nat (S k) + 1)).
  { unfold wrap32.
    replace ((Z.of_nat k + 1 + 2 ^ 31) `mod` 2 ^ 32 - 2 ^ 31 + 1 + 2 ^ 31) with ((Z.of_nat k + 1 + 2 ^ 31) `mod` 2 ^ 32 + 1) by lia.
    rewrite Zplus_mod_idemp_l. f_equal. f_equal. lia. }
  unfold exec, after. cbn [cmd_prog h_b lookup list_lookup]. unfold body at 1. cbn [method]. unfold rbody, readerAt_Copy, readerAt_ref.
  rewrite <- Hw. cbn. rewrite replicate_length. fold body. unfold set_c, set_b. cbn. fold body. rewrite Hl. done.
Qed.

Lemma many_copies n : forall k, fst (history E 0 (after k) (replicate n (Call 1 Copy))) = after (n + k).
Proof.
  induction n as [|n IH]; intros k; [done|]. cbn [replicate history]. rewrite many_copy.
  specialize (IH (S k)). destruct (history E 0 (after (S k)) (replicate n (Call 1 Copy))) as [h os]. cbn in *. rewrite IH. f_equal. lia.
Qed.

Lemma many_closed :
  exists (W : Type) (E : env W) (w : W) (cs : list cmd) (h1 h2 : heap W) (os : list (out res)) (x y : heap W * out res),
  go_env E /\ Forall go_cmd cs /\ Forall (fun c => c = Call 1 Copy) cs /\
  exec E 0 (initial w) (NewReader 0) = (h1, ORet (RBody 1 None)) /\
  history E 0 h1 cs = (h2, os) /\
  Forall not_close (h_log h2) /\
  exec E 0 h2 (Call 2 Close) = x /\ snd x = ORet (RErr None) /\
  h_log (fst x) = h_log h2 ++ [EvClose 0 None] /\
  exec E 0 (fst x) (Call 1 (Read (buf 4))) = y /\ snd y = ORet (RRead 0 (buf 4) (Some EOF)).
Proof.
  set (n := Z.to_nat (2 ^ 31)).
  assert (Hn : Z.of_nat n = 2 ^ 31) by (unfold n; lia).
  assert (Hn0 : exists n', n = S n') by (destruct n; [lia|eauto]).
  exists (list nat), E, [0%nat], (replicate n (Call 1 Copy)), (after 0), (after n),
    (snd (history E 0 (after 0) (replicate n (Call 1 Copy)))).
  eexists _, _. clearbody n.
  split; [apply demo_go|]. split; [apply Forall_replicate; done|]. split; [by apply Forall_replicate|].
  split; [vm_compute; reflexivity|]. split.
  { pose proof (many_copies n 0) as H. rewrite Nat.add_0_r in H. destruct (history E 0 (after 0) _) as [h os]. cbn in *. by subst h. }
  split; [repeat constructor|]. split; [reflexivity|].
  assert (Hw : wrap32 (wrap32 (Z.of_nat n + 1) - 1) = - 2 ^ 31) by (rewrite Hn; vm_compute; reflexivity).
  assert (Hc : exec E 0 (after n) (Call 2 Close) =
    ({| h_b := <[2%nat := BReaderAt {| rb_common := None; rb_err := None; rb_offset := 0; rb_closed := true |}]> (h_b (after n));
        h_c := [CReaderAt {| rc_r := None; rc_at := None; rc_length := 0; rc_refcnt := 0 |}]; h_w := [0%nat];
        h_log := log ++ [EvClose 0 None] |}, ORet (RErr None))).
  { assert (Hi : h_b (after n) !! 2%nat = Some body) by (destruct Hn0 as [n' ->]; done).
    assert (Ho : ra_open (after n) 2 {| rb_common := Some 0%nat; rb_err := None; rb_offset := 0; rb_closed := false |} 0
      {| rc_r := Some 0%nat; rc_at := Some 0%nat; rc_length := 11; rc_refcnt := wrap32 (Z.of_nat n + 1) |} 0).
    { constructor; try done; cbn; unfold max_i64; lia. }
    unfold exec. cbn [cmd_prog]. rewrite Hi. unfold body at 1. cbn [method]. rewrite run_rerr, (run_ra_Close E _ _ _ _ _ _ Ho).
    cbn [rc_refcnt]. rewrite Hw. reflexivity. }
  split; [by rewrite Hc|]. split; [by rewrite Hc|]. split; [reflexivity|]. rewrite Hc. cbn [fst].
  destruct Hn0 as [n' ->]. vm_compute. reflexivity.
Qed.
End Many.

(** ** The outside world of the examples obeys the rules *)
Lemma demo_rules ss : rule_abiding (demo ss).
Proof.
  split; [apply demo_go|]. split_and!.
  - intros w r p. unfold rd_count, zlen. cbn. lia.
  - intros w r p off. unfold rd_count, zlen. cbn. lia.
  - intros w r n. cbn. intros [= <-]. unfold zlen, max_i64. lia.
  - intros w r off wh n. cbn. destruct (_ <? 0) eqn:H; cbn; [done|]. intros [= <-]. lia.
  - intros w x p. eexists _, _. split; [done|]. unfold zlen. lia.
Qed.

Lemma demo_progress ss : Forall (fun s => so_chunk s <> 0%nat) ss -> progressing (demo ss).
Proof.
  intros Hss w r p Hp. cbn. unfold rd_count. cbn.
  destruct (_ =? 0)%nat eqn:H1; cbn; [|left; lia].
  destruct p; [done|]. cbn. by right.
Qed.

Definition liar : env unit :=
  {| ev_caps := fun _ => plain; ev_read := fun w r p => (w, (zlen p + 1, p, None));
     ev_readat := fun w r p off => (w, (0, p, None)); ev_seek := fun w r off wh => (w, (0, None));
     ev_close := fun w r => (w, None); ev_stat := fun w r => (w, (0, None)); ev_write := fun w x p => (w, inl (0, None)) |}.
Lemma liar_panics :
  exists (W : Type) (E : env W) (h : heap W) (c : cmd),
  go_env E /\ reaches E 9 h /\ go_cmd c /\ known h c /\ snd (exec E 9 h c) = OPanic PAssert.
Proof.
  exists unit, liar, (fst (history liar 9 (initial tt) [NewReader 0])), (Call 1 (Read (buf 3))).
  split; [split; intros; vm_compute; done|]. split.
  { eexists _, _, _. split; [|split; [apply surjective_pairing|split; vm_compute; done]]. repeat constructor. }
  split; [vm_compute; done|]. split; [vm_compute; lia|]. vm_compute. reflexivity.
Qed.

(** ** C46: the length is shared, the offset is not *)
Definition shrunk : env (list nat) := demo [hello seekable 64].
Definition shrinking : list cmd :=
  [NewReaderLen 0 20; Call 1 Copy; Call 2 (Seek 15 0); Call 1 (Read (buf 12)); Call 1 (Read (buf 12))].
Lemma negative_remaining :
  exists (W : Type) (E : env W) (h : heap W) i z,
  go_env E /\ rule_abiding E /\ reaches E 9 h /\
  exec E 9 h (Call i BytesRemaining) = (h, ORet (RInt z)) /\ z < -1.
Proof.
  exists (list nat), shrunk, (fst (history shrunk 9 (initial [0%nat]) shrinking)), 2%nat, (-4).
  split; [apply demo_go|]. split; [apply demo_rules|]. split; [|split; [vm_compute; reflexivity|lia]].
  eexists _, _, _. split; [|split; [apply surjective_pairing|split; vm_compute; done]]. repeat constructor; vm_compute; done.
Qed.
