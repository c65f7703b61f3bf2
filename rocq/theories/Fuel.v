(** * The fuel of the read loop (proofs) *)
From stdpp Require Import gmap.
From Coq Require Import ZifyBool.
From Verif Require Export Any.

(** Programs without the read loop contain no [Spin]. *)
Fixpoint spinless {A} (m : prog A) : Prop :=
  match m with Do a k => forall x, spinless (k x) | Spin => False | _ => True end.
Lemma spinless_bind {A B} (m : prog A) (k : A -> prog B) :
  spinless m -> (forall a, spinless (k a)) -> spinless (bind m k).
Proof. induction m; cbn; intros H1 H2; auto. Qed.
Lemma spinless_locked {A} l (m : prog A) : spinless m -> spinless (locked l m).
Proof. intros H. unfold locked. cbn. intros _. induction m as [| | |X a k IH]; cbn in *; auto. Qed.
Lemma spinless_of_option {A} e (o : option A) : spinless (of_option e o).
Proof. destruct o; cbn; done. Qed.
Lemma spinless_assert b : spinless (assert b).
Proof. destruct b; cbn; done. Qed.

Ltac sl :=
  repeat first
    [ progress intros
    | apply spinless_locked | apply spinless_bind | apply spinless_of_option | apply spinless_assert
    | match goal with
      | |- spinless (match ?x with _ => _ end) => destruct x
      | |- spinless (perform _) => cbn; auto
      | |- spinless (ldEmpty _) => cbn; intros []; cbn; auto
      | |- spinless (ldBytes _) => cbn; intros []; cbn; auto
      | |- spinless (ldSeeker _) => cbn; intros []; cbn; auto
      | |- spinless (ldReaderAt _) => cbn; intros []; cbn; auto
      | |- spinless (ldBuffered _) => cbn; intros []; cbn; auto
      | |- spinless (ldSeekerC _) => cbn; intros []; cbn; auto
      | |- spinless (ldReaderAtC _) => cbn; intros []; cbn; auto
      | |- spinless (ldBufferedC _) => cbn; intros []; cbn; auto
      | |- spinless (let _ := _ in _) => cbv zeta
      | |- spinless (Ret _) => exact I
      | |- spinless (Panic _) => exact I
      end ].

Lemma sl_updateStart_loop l x y : spinless (updateStart_loop l x y).
Proof.
  revert x y. induction l as [|k l IH]; intros x y; [exact I|]. cbn [updateStart_loop].
  sl; apply IH.
Qed.
Local Opaque updateStart_loop.
Lemma sl_updateStart c : spinless (buffered_updateStart c).
Proof. unfold buffered_updateStart. sl. apply sl_updateStart_loop. Qed.
Local Opaque buffered_updateStart.
Lemma sl_drop c : spinless (buffered_drop c).
Proof. unfold buffered_drop. sl. apply sl_updateStart. Qed.
Local Opaque buffered_drop.
Lemma sl_advance c a b : spinless (buffered_advance c a b).
Proof. unfold buffered_advance. sl. apply sl_drop. Qed.
Local Opaque buffered_advance.

Lemma sl_method fuel o i f :
  (forall b p, o <> BBuffered b \/ f <> Read p) -> spinless (method fuel o i f).
Proof.
  intros Hno. destruct o, f; cbn [method]; try exact I;
    try (exfalso; match goal with |- context [BBuffered ?b] => idtac | _ => destruct (Hno b p); done end);
    unfold rint, rread, rerr, rseek, rwriteto, rbody, rreader; apply spinless_bind;
    try (intros []; cbn; done); try (intros [[] ?]; cbn; done).
  all: try exact I.
  all: unfold empty_Read, empty_Close, empty_Seek, empty_ReadAt, empty_WriteTo, empty_Copy,
    bytes_BytesRemaining, bytes_Read, bytes_Close, bytes_Seek, bytes_ReadAt, bytes_WriteTo, bytes_Copy,
    seeker_BytesRemaining, seeker_Read, seeker_Close, seeker_Seek, seeker_ReadAt, seeker_Copy, seeker_Unwrap,
    readerAt_BytesRemaining, readerAt_Read, readerAt_Close, readerAt_Seek, readerAt_ReadAt, readerAt_Copy, readerAt_Unwrap,
    buffered_BytesRemaining, buffered_Close, buffered_Copy, buffered_Unwrap,
    seeker_unref, seeker_ref, readerAt_unref, readerAt_ref, buffered_ref, buffered_unref,
    seekerCommon_BytesRemaining, readerAtCommon_BytesRemaining, seeker_readAt, readerAt_readAt, call_write.
  all: sl.
  all: first [apply sl_advance | apply sl_drop].
Qed.

Section Fuel.
Context {W : Type} (E : env W).
Implicit Types h : heap W.

(** [m'] does what [m] does whenever [m] returns. *)
Definition refines_spin {A} (m m' : prog A) : Prop :=
  forall h h' o, run E h m = (h', o) -> o <> OSpin -> run E h m' = (h', o).

Lemma rs_refl {A} (m : prog A) : refines_spin m m.
Proof. intros h h' o H _. done. Qed.
Lemma rs_bind {A B} (m m' : prog A) (k k' : A -> prog B) :
  refines_spin m m' -> (forall a, refines_spin (k a) (k' a)) -> refines_spin (bind m k) (bind m' k').
Proof.
  intros Hm Hk h h' o. rewrite !run_bind. destruct (run E h m) as [h1 o1] eqn:H1.
  intros H Ho. destruct o1 as [a|e|].
  - rewrite (Hm _ _ _ H1) by done. by apply Hk.
  - rewrite (Hm _ _ _ H1) by done. done.
  - injection H as <- <-. done.
Qed.
Lemma rs_locked {A} l (m m' : prog A) : refines_spin m m' -> refines_spin (locked l m) (locked l m').
Proof. intros Hm h h' o. rewrite !run_locked. apply Hm. Qed.

Lemma rs_fill fuel : forall fuel' c bufNew a b d e,
  (fuel <= fuel')%nat -> refines_spin (buffered_fill fuel c bufNew a b d e) (buffered_fill fuel' c bufNew a b d e).
Proof.
  induction fuel as [|fuel IH]; intros fuel' c bufNew a b d e Hle.
  - cbn [buffered_fill]. destruct (b >? 0) eqn:Hb.
    + intros h h' o [= <- <-]. done.
    + destruct fuel'; cbn [buffered_fill]; rewrite Hb; apply rs_refl.
  - destruct fuel' as [|fuel']; [lia|]. cbn [buffered_fill]. destruct (b >? 0); [|apply rs_refl].
    apply rs_bind; [apply rs_refl|intros cm]. apply rs_bind; [apply rs_refl|intros r].
    apply rs_bind; [apply rs_refl|intros bf]. apply rs_bind; [apply rs_refl|intros [[n q] [x|]]];
    (apply rs_bind; [apply rs_refl|intros _]); (apply rs_bind; [apply rs_refl|intros _]);
    (apply rs_bind; [apply rs_refl|intros bs]); (apply rs_bind; [apply rs_refl|intros _]); [apply rs_refl|].
    apply IH. lia.
Qed.

Lemma rs_fetch fuel fuel' c a b d :
  (fuel <= fuel')%nat -> refines_spin (buffered_fetch fuel c a b d) (buffered_fetch fuel' c a b d).
Proof.
  intros Hle. unfold buffered_fetch. apply rs_bind; [apply rs_refl|intros cm].
  destruct (match bc_err cm with Some _ => _ | None => _ end); [|apply rs_refl].
  apply rs_bind; [apply rs_refl|intros [n e]]. cbv zeta. destruct (_ <? 0); [apply rs_refl|].
  apply rs_bind; [apply rs_refl|intros old]. apply rs_bind; [apply rs_refl|intros nw].
  apply rs_bind; [apply rs_refl|intros bs]. apply rs_bind; [apply rs_refl|intros _].
  apply rs_bind; [by apply rs_fill|intros x]. apply rs_refl.
Qed.

Lemma rs_method fuel fuel' o i f :
  (fuel <= fuel')%nat -> refines_spin (method fuel o i f) (method fuel' o i f).
Proof.
  intros Hle. destruct o, f; try apply rs_refl. cbn [method]. unfold rread, buffered_Read.
  apply rs_bind; [|intros [[n q] e]; apply rs_refl]. apply rs_locked. apply rs_bind; [apply rs_refl|intros x].
  destruct (bb_closed x); [apply rs_refl|]. apply rs_bind; [apply rs_refl|intros c].
  apply rs_locked. apply rs_bind; [apply rs_refl|intros cm]. destruct (bb_eof x); [apply rs_refl|]. cbv zeta.
  apply rs_bind; [apply rs_refl|intros _]. apply rs_bind; [by apply rs_fetch|intros y]. apply rs_refl.
Qed.

Lemma fuel_irrelevant fuel fuel' h c h' o :
  (fuel <= fuel')%nat -> exec E fuel h c = (h', o) -> o <> OSpin -> exec E fuel' h c = (h', o).
Proof.
  intros Hle. unfold exec. destruct c as [i f| | | | | | |]; cbn [cmd_prog]; try done.
  destruct (h_b h !! i); [|done]. by apply rs_method.
Qed.

(** A progressing Reader needs no more calls than bytes asked for. *)
Lemma fill_returns fuel : forall h c bufNew a b d e,
  (forall w r p, p <> [] -> rd_count (snd (ev_read E w r p)) <> 0 \/ snd (snd (ev_read E w r p)) <> None) ->
  (Z.to_nat b <= fuel)%nat -> snd (run E h (buffered_fill fuel c bufNew a b d e)) <> OSpin.
Proof.
  induction fuel as [|fuel IH]; intros h c bufNew a b d e Hp Hle.
  - cbn [buffered_fill]. replace (b >? 0) with false by lia. done.
  - cbn [buffered_fill]. destruct (b >? 0) eqn:Hb; [|done].
    unfold ldBufferedC. cbn [perform bind run act_step]. destruct (h_c h !! c) as [[x|x|x]|]; try done. cbn [bind].
    destruct (bc_r x) as [r|]; cbn [of_option bind]; [|done].
    destruct (slice bufNew a (a + b)) as [bf|] eqn:Hs; cbn [of_option bind]; [|done].
    assert (Hne : bf <> []). { intros ->. apply slice_len in Hs. unfold zlen in Hs. cbn in Hs. lia. }
    specialize (Hp (h_w h) r bf Hne) as Hpr. cbn [perform bind run act_step].
    destruct (ev_read E (h_w h) r bf) as [w1 [[n q] err]]. cbn in Hpr.
    rewrite run_bind, run_assert. destruct (n >=? 0) eqn:H0; [|done]. rewrite run_bind, run_assert. destruct (n <=? b) eqn:H1; [|done].
    rewrite run_bind, run_of_option. destruct (slice _ 0 _); [|done]. destruct err as [e1|].
    + cbn [perform bind run act_step]. destruct (h_c _ !! c); done.
    + cbn [perform bind run act_step]. destruct (h_c _ !! c); [|done]. apply IH; [done|].
      destruct Hpr; [lia|done].
Qed.

Lemma spinless_run {A} (m : prog A) h : spinless m -> snd (run E h m) <> OSpin.
Proof.
  revert h. induction m as [| | |X a k IH]; intros h Hs; try done.
  cbn. destruct (act_step E h a) as [[h' x]|]; [|done]. apply IH. apply Hs.
Qed.
Lemma run_bind_returns {A B} (m : prog A) (k : A -> prog B) h :
  snd (run E h m) <> OSpin -> (forall a, spinless (k a)) -> snd (run E h (bind m k)) <> OSpin.
Proof.
  intros Hm Hk. rewrite run_bind. destruct (run E h m) as [h1 [a| |]]; try done. by apply spinless_run.
Qed.

Lemma fetch_returns fuel h c cm upto :
  progressing E -> h_c h !! c = Some (CBuffered cm) -> 0 < blockSize ->
  upto - buf_end cm <= 2 ^ 62 -> (Z.to_nat (upto - buf_end cm + blockSize) <= fuel)%nat ->
  bc_length cm = -1 \/ buf_end cm <= bc_length cm ->
  snd (run E h (buffered_fetch fuel c (bc_start cm) (buf_end cm) upto)) <> OSpin.
Proof.
  intros Hp Hc Hbs Hup Hfuel Hlen. unfold buffered_fetch. rs.
  destruct (match bc_err cm with Some _ => false | None => upto >? buf_end cm end) eqn:Hcond; [|done].
  assert (Hgt : buf_end cm < upto) by (destruct (bc_err cm); [done|lia]).
  pose proof (round_block_spec (upto - buf_end cm) ltac:(lia)) as [Hr _].
  set (nr := round_block (upto - buf_end cm)) in *.
  assert (Hsel : exists want e, (0 <= want <= nr) /\ run E h (if bc_length cm >=? 0 then
         assert (buf_end cm <=? bc_length cm) ;;;
         Ret (if nr >=? bc_length cm - buf_end cm then (bc_length cm - buf_end cm, true) else (nr, false))
       else Ret (nr, false)) = (h, ORet (want, e))).
  { destruct (bc_length cm >=? 0) eqn:Hl; [|exists nr, false; split; [lia|done]].
    rs. destruct (buf_end cm <=? bc_length cm) eqn:Hle; [|lia]. rs. gif; eexists _, _; (split; [|done]); lia. }
  destruct Hsel as (want & e & Hw & Hsel). rewrite run_bind, Hsel. cbv beta iota zeta.
  gif; [done|]. rewrite run_bind, run_of_option. destruct (slice _ 0 _); [|done].
  rewrite run_bind, run_of_option. destruct (copy_into _ _ _ _); [|done].
  rewrite run_bind, run_of_option. destruct (slice _ 0 _); [|done].
  erewrite run_bind, run_StoreC by done. cbv beta iota.
  apply run_bind_returns.
  - apply fill_returns; [done|lia].
  - intros x. sl.
Qed.

Lemma read_returns fuel h c :
  progressing E -> wf h -> feasible h -> go_cmd c ->
  (forall i p, c = Call i (Read p) -> (Z.to_nat (zlen p + blockSize) <= fuel)%nat) ->
  snd (exec E fuel h c) <> OSpin.
Proof.
  intros Hp Hwf [Hf1 Hf2] Hgo Hfuel. unfold exec. destruct c as [i f| | |d|s|r|r len|b]; cbn [cmd_prog].
  2,3: done.
  2: unfold rnew, FromBytes; gif; done.
  2: unfold rnew, FromString; gif; done.
  2,3: unfold FromReader, rfrom; rewrite run_bind, run_From; destruct (find_len E (h_w h) _ _) as [[w evs] x]; destruct x; done.
  2: destruct (h_b h !! b); done.
  destruct (h_b h !! i) as [b|] eqn:Hi; [|done].
  assert ((exists x p, b = BBuffered x /\ f = Read p) \/ forall x p, b <> BBuffered x \/ f <> Read p) as [(x & p & -> & ->)|Hno].
  { destruct b, f; try (by right; intros; left); try (by right; intros; right). left; eauto. }
  2:{ apply spinless_run. by apply sl_method. }
  cbn [method]. unfold rread. apply run_bind_returns; [|intros [[n q] e]; sl].
  destruct (bb_closed x) eqn:Hcl.
  { unfold buffered_Read. rs. rewrite Hcl. rs. done. }
  destruct (bf_open_wf h i x Hwf Hi Hcl) as (c & cm & r & m & Ho).
  pose proof (wf_t _ Hwf _ _ (bf_cm _ _ _ _ _ _ _ Ho)) as Hbe. pose proof (bf_off_bounds _ _ _ _ _ _ _ Ho) as Hob.
  destruct Ho as [bf_b0 bf_ncl0 bf_c0 bf_cm0 bf_live0 bf_eof0]. destruct bf_live0 as [L1 L2 L3 L4 L5 L6 L7 L8 L9].
  specialize (Hfuel i p eq_refl). cbn in Hgo. unfold max_slice in Hgo. pose proof (zlen_nonneg p) as Hp0.
  unfold buffered_Read. rs. rewrite Hcl. rs. rewrite bf_c0. rs.
  destruct (bb_eof x) eqn:Heof; [rs; done|]. cbv zeta.
  rewrite wrap64_id by (unfold min_i64, max_i64; lia). fold (buf_end cm).
  rewrite run_bind, run_assert. destruct (bb_offset x >=? bc_start cm); [|done].
  apply run_bind_returns; [|intros y; sl; apply sl_advance].
  apply fetch_returns; try done; lia.
Qed.
Lemma pulls_silent r w want w' evs d pe :
  silent E -> 0 < want -> pulls E r w want w' evs d pe -> pe = PSpin.
Proof.
  intros Hs Hw H. induction H as [| |w want buf w' n q e H1 H2 H3 H4|w want buf w' n q e H1 H2 H3 H4|w want buf w1 n q w' evs d pe H1 H2 H3 H4 H5 IH]; [lia|done| | |].
  - destruct (Hs w r buf) as [Hn He]. rewrite H3 in Hn. cbn in Hn. lia.
  - destruct (Hs w r buf) as [Hn He]. rewrite H3 in He. done.
  - destruct (Hs w r buf) as [Hn He]. rewrite H3 in Hn. cbn in Hn. apply IH. lia.
Qed.

Lemma read_spins fuel fuel' h r h1 i p :
  go_env E -> silent E -> cp_file (ev_caps E r) = false -> cp_seeker (ev_caps E r) = false ->
  reaches E fuel h -> exec E fuel h (NewReader r) = (h1, ORet (RBody i None)) -> feasible h1 ->
  p <> [] -> zlen p <= max_slice ->
  snd (exec E fuel' h1 (Call i (Read p))) = OSpin.
Proof.
  intros Hge Hs Hfile Hseek Hr Hex Hf1 Hp Hgo. apply reaches_wf in Hr as [Hwf Hf]; [|done].
  assert (Hwf1 : wf h1) by (eapply exec_wf; [done|done| |exact Hex|done]; done).
  unfold exec in Hex. cbn [cmd_prog] in Hex. unfold FromReader, rfrom in Hex. rewrite run_bind, run_From in Hex.
  unfold find_len in Hex. rewrite Hfile, Hseek in Hex. change (-1 >=? 0) with false in Hex. cbv iota in Hex.
  unfold new_pair in Hex. rewrite Hseek in Hex. rewrite andb_false_r in Hex. cbn in Hex. injection Hex as <- <-.
  set (h1 := set_b _ _) in *. set (x := {| bb_common := Some (length (h_c h)); bb_offset := 0; bb_eof := false; bb_closed := false |}) in *.
  assert (Hi : h_b h1 !! length (h_b h) = Some (BBuffered x)).
  { unfold h1. cbn. rewrite lookup_app_r, Nat.sub_diag by lia. done. }
  destruct (bf_open_wf h1 (length (h_b h)) x Hwf1 Hi eq_refl) as (c & cm & r' & m & Ho).
  assert (Hcm : cm = {| bc_r := Some r; bc_err := None; bc_bodies := Some [length (h_b h)]; bc_bytes := []; bc_length := -1;
                  bc_start := 0; bc_refcnt := 1 |}).
  { destruct Ho as [_ _ Hc Hcm _ _]. cbn in Hc. injection Hc as <-. unfold h1 in Hcm. cbn in Hcm.
    rewrite lookup_app_r, Nat.sub_diag in Hcm by lia. by injection Hcm as <-. }
  assert (Hbe : buf_end cm = 0) by (rewrite Hcm; done).
  unfold exec. cbn [cmd_prog]. rewrite Hi. cbn [method]. unfold rread. rewrite run_bind.
  destruct Hf1 as [Hf1 Hf2]. unfold max_slice in Hgo.
  pose proof (run_bf_Read E fuel' h1 (length (h_b h)) x c cm r' m p Hwf1 Ho Hf1 Hgo ltac:(lia)) as H.
  cbn [bb_eof x] in H. destruct H as (w' & evs & d & cm1 & pe & Hfr & H).
  assert (Hlen : 0 < zlen p) by (destruct p; [done|unfold zlen; cbn; lia]).
  assert (Hpe : pe = PSpin).
  { destruct Hfr as [(Hx & _)|(_ & _ & Hpl & _)].
    - rewrite Hbe in Hx. rewrite Hcm in Hx. cbn in Hx. destruct Hx as [Hx|Hx]; [done|lia].
    - eapply pulls_silent; [done| |exact Hpl].
      unfold fetch_want, fetch_size. rewrite Hbe. rewrite Hcm. cbn [bc_length bb_offset x].
      pose proof (round_block_spec (0 + zlen p - 0) ltac:(lia)) as [? ?]. change (-1 >=? 0) with false. cbv iota. lia. }
  subst pe. rewrite H. done.
Qed.
Lemma reached_returns fuel h c :
  go_env E -> progressing E -> reaches E fuel h -> go_cmd c ->
  (forall i p, c = Call i (Read p) -> (Z.to_nat (zlen p + 65536) <= fuel)%nat) ->
  snd (exec E fuel h c) <> OSpin.
Proof. intros Hge Hpr Hr. apply reaches_wf in Hr as [Hwf Hf]; [|done]. by apply read_returns. Qed.
End Fuel.
