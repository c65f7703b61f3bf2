(** * What a program returns, whatever the outside world answers (proofs)

    Used for facts that need no invariant: the buffer a Read returns is as long
    as the one it got. *)
From stdpp Require Import gmap.
From Coq Require Import ZifyBool.
From Verif Require Import RunFacts.

(** Buffers handed out come back with the same length. *)
Definition answer_ok {X} (a : act X) : X -> Prop :=
  match a in act Y return Y -> Prop with
  | CallRead r p => fun x => length x.1.2 = length p
  | CallReadAt r p off => fun x => length x.1.2 = length p
  | _ => fun _ => True
  end.
Fixpoint post {A} (Q : A -> Prop) (m : prog A) : Prop :=
  match m with
  | Ret a => Q a
  | Panic _ | Spin => True
  | Do a k => forall x, answer_ok a x -> post Q (k x)
  end.
Lemma fit_len (p q : bytes) : length (fit p q) = length p.
Proof. unfold fit. rewrite take_length, app_length, drop_length. lia. Qed.
Lemma post_run {W} (E : env W) {A} (Q : A -> Prop) (m : prog A) : post Q m -> forall h h' a, run E h m = (h', ORet a) -> Q a.
Proof.
  induction m as [a|e| |X a k IH]; cbn; intros Hm h h' b H; try done; [by injection H as <- <-|].
  destruct (act_step E h a) as [[h1 x]|] eqn:Ha; [|done]. eapply (IH x); [|exact H]. apply Hm. clear -Ha.
  destruct a; cbn in *; try done.
  - destruct (ev_read E (h_w h) r p) as [w [[n q] e]]. injection Ha as <- <-. apply fit_len.
  - destruct (ev_readat E (h_w h) r p off) as [w [[n q] e]]. injection Ha as <- <-. apply fit_len.
Qed.
Lemma post_any {A} (m : prog A) : post (fun _ => True) m.
Proof. induction m; cbn; auto. Qed.
Lemma post_bind {A B} (P : A -> Prop) (Q : B -> Prop) (m : prog A) (k : A -> prog B) :
  post P m -> (forall a, P a -> post Q (k a)) -> post Q (bind m k).
Proof. intros Hm Hk. induction m as [a|e| |X a k' IH]; cbn in *; auto. Qed.
Lemma post_step {A B} (Q : B -> Prop) (m : prog A) (k : A -> prog B) : (forall a, post Q (k a)) -> post Q (bind m k).
Proof. intros Hk. eapply post_bind; [apply post_any|]. auto. Qed.
Lemma post_deferred {A} (Q : A -> Prop) (m : prog A) u : post Q m -> post Q (deferred m u).
Proof. induction m as [a|e| |X a k' IH]; cbn; auto. Qed.
Lemma post_locked {A} (Q : A -> Prop) (m : prog A) l : post Q m -> post Q (locked l m).
Proof. intros H. cbn. intros _ _. by apply post_deferred. Qed.
Lemma post_of_option {A} e (o : option A) : post (fun a => o = Some a) (of_option e o).
Proof. by destruct o. Qed.

Lemma slice_len {A} (l : list A) i j s : slice l i j = Some s -> length s = Z.to_nat (j - i) /\ (Z.to_nat j <= length l)%nat /\ 0 <= i <= j.
Proof.
  unfold slice, zlen. destruct (_ && _) eqn:Hc; [|done]. intros [= <-]. rewrite take_length, drop_length. lia.
Qed.
Lemma copy_into_len {A} (p : list A) i j src p' : copy_into p i j src = Some p' -> length p' = length p.
Proof.
  unfold copy_into. destruct (slice p i j) as [s|] eqn:Hs; [|done]. apply slice_len in Hs as (H1 & H2 & H3). intros [= <-].
  rewrite !app_length, take_length, drop_length. unfold go_copy. rewrite app_length, take_length, drop_length. lia.
Qed.

Definition same_len (p : bytes) (x : rdres) : Prop := length x.1.2 = length p.
Ltac post1 :=
  match goal with
  | |- post _ (locked _ _) => apply post_locked
  | |- post _ (bind (of_option _ _) _) => eapply post_bind; [apply post_of_option|]; intros ? ?; cbv beta in *
  | |- post _ (bind (perform (CallRead _ ?p)) _) => eapply (post_bind (same_len p)); [by cbn|]; intros ? ?; cbv beta in *
  | |- post _ (bind (perform (CallReadAt _ ?p _)) _) => eapply (post_bind (same_len p)); [by cbn|]; intros ? ?; cbv beta in *
  | |- post _ (bind _ _) => apply post_step; intros ?
  | |- post _ (match ?x with _ => _ end) => destruct x
  | |- post _ (let '(_, _) := ?x in _) => destruct x
  | |- post _ (Ret _) => cbn; try done
  | |- post _ (Panic _) => done
  end.
Lemma post_seeker_readAt x p off : post (same_len p) (seeker_readAt x p off).
Proof.
  unfold seeker_readAt. repeat post1.
Qed.
Lemma post_readerAt_readAt x p off : post (same_len p) (readerAt_readAt x p off).
Proof.
  unfold readerAt_readAt. repeat post1.
Qed.
Lemma window_len (p px px' : bytes) x : slice p 0 x = Some px -> length px' = length px -> length (px' ++ drop (Z.to_nat x) p) = length p.
Proof. intros (H1 & H2 & H3)%slice_len H. rewrite app_length, drop_length, H, H1. lia. Qed.
Lemma post_window (p : bytes) b (x : Z) (rd : bytes -> prog rdres) :
  (forall px, post (same_len px) (rd px)) ->
  post (same_len p) (if b : bool then bind (of_option PRange (slice p 0 x)) (fun px => bind (rd px) (fun '(n, px', err) => Ret (n, px' ++ drop (Z.to_nat x) p, err))) else Ret (0, p, None)).
Proof.
  intros Hrd. destruct b; [|done]. eapply post_bind; [apply post_of_option|]. intros px Hpx. eapply post_bind; [apply Hrd|]. intros [[n q] e] Hq. cbn. unfold same_len. cbn.
  eapply window_len; [exact Hpx|exact Hq].
Qed.
Lemma post_seeker_Read i p : post (same_len p) (seeker_Read i p).
Proof.
  unfold seeker_Read. cbv zeta. apply post_locked, post_step. intros b. post1; [done|]. post1; [done|]. apply post_step. intros c. apply post_locked, post_step. intros cm.
  eapply post_bind; [apply (post_window p _ _ (fun px => seeker_readAt _ px _)); intros; apply post_seeker_readAt|]. intros [[n q] e] Hq. by do 3 post1.
Qed.
Lemma post_readerAt_Read i p : post (same_len p) (readerAt_Read i p).
Proof.
  unfold readerAt_Read. cbv zeta. apply post_locked, post_step. intros b. post1; [done|]. post1; [done|]. apply post_step. intros c. apply post_locked, post_step. intros cm.
  eapply post_bind; [apply (post_window p _ _ (fun px => readerAt_readAt _ px _)); intros; apply post_readerAt_readAt|]. intros [[n q] e] Hq. by do 3 post1.
Qed.
Lemma post_bytes_Read i p : post (same_len p) (bytes_Read i p).
Proof. unfold bytes_Read. cbv zeta. repeat post1. unfold same_len. cbn. eapply copy_into_len; eassumption. Qed.
Lemma post_empty_Read i p : post (same_len p) (empty_Read i p).
Proof. unfold empty_Read. repeat post1. Qed.
Lemma post_buffered_Read fuel i p : post (same_len p) (buffered_Read fuel i p).
Proof. unfold buffered_Read. cbv zeta. repeat post1. unfold same_len. cbn. eapply copy_into_len; eassumption. Qed.

Lemma read_len {W} (E : env W) fuel h i p h' n q err :
  exec E fuel h (Call i (Read p)) = (h', ORet (RRead n q err)) -> length q = length p.
Proof.
  unfold exec, cmd_prog. destruct (h_b h !! i) as [b|]; [|done]. intros H.
  eapply (post_run E (fun x => match x with RRead _ q _ => length q = length p | _ => True end) _) in H; [done|].
  assert (Hrd : forall m, post (same_len p) m -> post (fun x => match x with RRead _ q _ => length q = length p | _ => True end) (rread m)).
  { intros m Hm. eapply post_bind; [exact Hm|]. by intros [[? ?] ?]. }
  destruct b; cbn [method]; apply Hrd; [done|apply post_empty_Read|apply post_bytes_Read|apply post_seeker_Read|apply post_readerAt_Read|apply post_buffered_Read].
Qed.
