(** * A call on one handle writes no other Body object (proof infrastructure) *)
From Verif Require Export RunFacts.

(** All stores to Body objects made by [m] go to objects satisfying [P]. *)
Fixpoint writesB (P : nat -> Prop) {A} (m : prog A) : Prop :=
  match m with
  | Do a k => match a with StoreB j _ => P j | _ => True end /\ forall x, writesB P (k x)
  | _ => True
  end.

Lemma writesB_bind P {A B} (m : prog A) (k : A -> prog B) :
  writesB P m -> (forall a, writesB P (k a)) -> writesB P (bind m k).
Proof. induction m; cbn; intros H1 H2; auto. destruct H1; split; auto. Qed.
Lemma writesB_locked P {A} l (m : prog A) : writesB P m -> writesB P (locked l m).
Proof.
  intros H. unfold locked. cbn. split; [done|]. intros _.
  induction m as [| | |X a k IH]; cbn in *; auto. destruct H; split; auto.
Qed.
Lemma writesB_of_option P {A} e (o : option A) : writesB P (of_option e o).
Proof. destruct o; cbn; done. Qed.
Lemma writesB_assert P b : writesB P (assert b).
Proof. destruct b; cbn; done. Qed.

Ltac wb :=
  repeat first
    [ progress intros
    | apply writesB_locked | apply writesB_bind | apply writesB_of_option | apply writesB_assert
    | match goal with
      | |- writesB _ (match ?x with _ => _ end) => destruct x
      | |- writesB _ (perform _) => cbn; split; auto
      | |- writesB _ (ldEmpty _) => cbn; split; auto; intros []; cbn; auto
      | |- writesB _ (ldBytes _) => cbn; split; auto; intros []; cbn; auto
      | |- writesB _ (ldSeeker _) => cbn; split; auto; intros []; cbn; auto
      | |- writesB _ (ldReaderAt _) => cbn; split; auto; intros []; cbn; auto
      | |- writesB _ (ldBuffered _) => cbn; split; auto; intros []; cbn; auto
      | |- writesB _ (ldSeekerC _) => cbn; split; auto; intros []; cbn; auto
      | |- writesB _ (ldReaderAtC _) => cbn; split; auto; intros []; cbn; auto
      | |- writesB _ (ldBufferedC _) => cbn; split; auto; intros []; cbn; auto
      | |- writesB _ (let _ := _ in _) => cbv zeta
      | |- writesB _ (Ret _) => exact I
      | |- writesB _ (Panic _) => exact I
      | |- writesB _ Spin => exact I
      end ].

Lemma wb_updateStart_loop P l x y : writesB P (updateStart_loop l x y).
Proof.
  revert x y. induction l as [|k l IH]; intros x y; [exact I|]. cbn [updateStart_loop].
  wb; apply IH.
Qed.
Local Opaque updateStart_loop.
Lemma wb_updateStart P c : writesB P (buffered_updateStart c).
Proof. unfold buffered_updateStart. wb. apply wb_updateStart_loop. Qed.
Local Opaque buffered_updateStart.
Lemma wb_drop P c : writesB P (buffered_drop c).
Proof. unfold buffered_drop. wb. apply wb_updateStart. Qed.
Local Opaque buffered_drop.
Lemma wb_fill P fuel c bufNew a b d e : writesB P (buffered_fill fuel c bufNew a b d e).
Proof.
  revert bufNew a b d e. induction fuel as [|fuel IH]; intros; cbn [buffered_fill].
  - wb.
  - destruct (b >? 0); [|exact I]. wb. apply IH.
Qed.
Local Opaque buffered_fill.
Lemma wb_fetch P fuel c a b d : writesB P (buffered_fetch fuel c a b d).
Proof. unfold buffered_fetch. wb; apply wb_fill. Qed.
Lemma wb_advance P c a b : writesB P (buffered_advance c a b).
Proof. unfold buffered_advance. wb. apply wb_drop. Qed.

Local Opaque buffered_fetch buffered_advance.

Lemma wb_method fuel o i f : writesB (eq i) (method fuel o i f).
Proof.
  destruct o, f; cbn [method]; try exact I;
    unfold rint, rread, rerr, rseek, rwriteto, rbody, rreader; apply writesB_bind;
    try (intros []; cbn; done); try (intros [[] ?]; cbn; done).
  all: try exact I.
  all: unfold empty_Read, empty_Close, empty_Seek, empty_ReadAt, empty_WriteTo, empty_Copy,
    bytes_BytesRemaining, bytes_Read, bytes_Close, bytes_Seek, bytes_ReadAt, bytes_WriteTo, bytes_Copy,
    seeker_BytesRemaining, seeker_Read, seeker_Close, seeker_Seek, seeker_ReadAt, seeker_Copy, seeker_Unwrap,
    readerAt_BytesRemaining, readerAt_Read, readerAt_Close, readerAt_Seek, readerAt_ReadAt, readerAt_Copy, readerAt_Unwrap,
    buffered_BytesRemaining, buffered_Read, buffered_Close, buffered_Copy, buffered_Unwrap,
    seeker_unref, seeker_ref, readerAt_unref, readerAt_ref, buffered_ref, buffered_unref,
    seekerCommon_BytesRemaining, readerAtCommon_BytesRemaining, seeker_readAt, readerAt_readAt, call_write.
  all: wb.
  all: first [apply wb_fetch | apply wb_advance | apply wb_drop].
Qed.

Section Frame.
Context {W : Type} (E : env W).
Implicit Types h : heap W.

Lemma run_writesB {A} P (m : prog A) h h' o :
  writesB P m -> run E h m = (h', o) ->
  (length (h_b h) <= length (h_b h'))%nat /\
  forall i, ~ P i -> (i < length (h_b h))%nat -> h_b h' !! i = h_b h !! i.
Proof.
  revert h. induction m as [a|e| |X a k IH]; intros h Hw Hr; cbn in Hr;
    try (injection Hr as <- <-; split; [lia|done]).
  destruct (act_step E h a) as [[h1 x]|] eqn:Ha.
  2:{ injection Hr as <- <-. split; [lia|done]. }
  cbn in Hw. destruct Hw as [Hw1 Hw2].
  specialize (IH x h1 (Hw2 x) Hr) as [IHl IHi].
  assert (Hs : (length (h_b h) <= length (h_b h1))%nat /\
               forall i, ~ P i -> (i < length (h_b h))%nat -> h_b h1 !! i = h_b h !! i).
  { destruct a; cbn in Ha;
      repeat match type of Ha with
      | context [match ?x with _ => _ end] => destruct x eqn:?
      end; try done; injection Ha as <- <-; cbn; (split; [rewrite ?app_length, ?insert_length; lia|]); try done.
    - intros j Hj _. apply list_lookup_insert_ne. congruence.
    - intros j _ Hl. rewrite lookup_app_l by done. done. }
  destruct Hs as [Hs1 Hs2]. split; [lia|].
  intros i Hi Hlt. rewrite IHi by (auto; lia). auto.
Qed.

Lemma wb_cmd fuel h c : writesB (fun i => exists f, c = Call i f) (cmd_prog fuel h c).
Proof.
  destruct c; cbn [cmd_prog].
  - destruct (h_b h !! i); [|exact I].
    generalize (wb_method fuel b i f). generalize (method fuel b i f). clear.
    induction p as [| | |X a k IH]; cbn; auto. intros [H1 H2]. split; auto.
    destruct a; eauto. subst. eauto.
  - exact I.
  - cbn; auto.
  - unfold rnew, FromBytes, Empty. wb.
  - unfold rnew, FromString, Empty. wb.
  - unfold rfrom, FromReader, FromReaderAndLength, readerAt_ref, seeker_ref, buffered_ref. wb.
  - unfold rfrom, FromReaderAndLength, readerAt_ref, seeker_ref, buffered_ref. wb.
  - destruct (h_b h !! b); exact I.
Qed.

(** A command changes at most the Body object it is called on. *)
Lemma exec_frame fuel h c h' o :
  exec E fuel h c = (h', o) ->
  (length (h_b h) <= length (h_b h'))%nat /\
  forall i b, (forall f, c <> Call i f) -> h_b h !! i = Some b -> h_b h' !! i = Some b.
Proof.
  intros H. unfold exec in H. pose proof (run_writesB _ _ _ _ _ (wb_cmd fuel h c) H) as [H1 H2].
  split; [done|]. intros i b Hi Hb.
  rewrite H2; [done| |by eapply lookup_lt_Some].
  intros [f ->]. by eapply Hi.
Qed.

End Frame.
