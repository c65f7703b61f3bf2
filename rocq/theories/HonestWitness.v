(** * Honest clients that run out of room, used by the examples only *)
From stdpp Require Import gmap.
From Coq Require Import ZifyBool.
From Verif Require Import WitnessServe LengthWitness HonestSpec SafeWitness.

(** As [bounded], with a ReadFrom that reads four bytes at a time and fails with [e] when
    there is no more room. *)
Definition frugal {W} (E : env W) (cp : wcaps) (room : nat) (e : error) : uenv (W * bytes) :=
  let U := bounded E cp room (Some e) in
  {| u_env := u_env U;
     u_hazard := u_hazard U; u_caps := u_caps U; u_map := u_map U; u_writeheader := u_writeheader U; u_push := u_push U; u_flush := u_flush U;
     u_readfrom := fun v _ last =>
       match last with
       | None => (v, inl (Read (buf 4)))
       | Some (ORet (RRead n q err)) =>
           let k := Nat.min (Z.to_nat n) (room - length v.2) in
           ((v.1, v.2 ++ take k q),
            if (k <? Z.to_nat n)%nat then inr (inl (0, Some e)) else
            match err with None => inl (Read (buf 4)) | Some EOF => inr (inl (0, None)) | Some er => inr (inl (0, Some er)) end)
       | Some _ => (v, inr (inl (0, Some e)))
       end;
     u_redirect := u_redirect U; u_error := u_error U; u_onpanic := u_onpanic U; u_mime := u_mime U;
     u_statustext := u_statustext U; u_grow := u_grow U |}.

Section F.
Context {W : Type} (E : env W) (cp : wcaps) (room : nat) (e : error).
Notation U := (frugal E cp room e).
Lemma frugal_honest u : honest U u snd.
Proof.
  constructor; try done.
  - intros v p v' res. cbn -[Nat.ltb Nat.min]. intros [= <- <-]. eexists. split; [|split; [reflexivity|]]; [lia|]. intros z. destruct (Nat.ltb _ _) eqn:Hk; [done|]. intros [= <-]. apply Nat.ltb_ge in Hk. lia.
  - intros v last v' x. cbn -[Nat.ltb Nat.min]. destruct last as [[r|p|]|]; [|by intros [= <- <-]..|intros [= <- <-]; split; [done|by left]].
    destruct r; try (by intros [= <- <-]). intros [= <- <-]. eexists. split; [|split; [reflexivity|]]; [lia|]. destruct (Nat.ltb _ _) eqn:Hk; [by right; right|]. apply Nat.ltb_ge in Hk.
    destruct err as [er|]; [|left; split; [done|lia]]. destruct er; try (by right; right). right. left. split; [done|]. split; [lia|done].
Qed.
Lemma frugal_go : go_env E -> go_uenv U.
Proof.
  intros H. destruct (bounded_go E cp room (Some e) H) as (H1 & _ & H3). split; [done|]. split; [|done]. intros v u last v' f. cbn -[Nat.ltb Nat.min].
  destruct last as [[r|p|]|]; try done; [|by intros [= <- <-]]. destruct r; try done. destruct (Nat.ltb _ _); [done|]. destruct err as [er|]; [by destruct er|]. by intros [= <- <-].
Qed.
Lemma frugal_calm (R : W -> W -> Prop) : (forall w, R w w) -> calm U (fun v v' => R v.1 v'.1).
Proof.
  intros HR. destruct (bounded_calm E cp room (Some e) R HR). constructor; try done. intros v u last. cbn -[Nat.ltb Nat.min].
  destruct last as [[r|p|]|]; cbn; try apply HR. destruct r; cbn; apply HR.
Qed.
Lemma frugal_serves_at r (live : W -> Prop) d early : serves_at E r live d early -> serves_at (u_env U) r (fun v => live v.1) d early.
Proof. exact (bounded_serves_at E cp room (Some e) r live d early). Qed.
Lemma frugal_serves_seek r (live : W -> Prop) d early : serves_seek E r live d early -> serves_seek (u_env U) r (fun v => live v.1) d early.
Proof. exact (bounded_serves_seek E cp room (Some e) r live d early). Qed.
Lemma frugal_streams r (gp : W -> nat) d er : streams E r gp d er -> streams (u_env U) r (fun v => gp v.1) d er.
Proof. exact (bounded_streams E cp room (Some e) r gp d er). Qed.
Lemma frugal_truthful_at r (live : W -> Prop) d : truthful_at E r live d -> truthful_at (u_env U) r (fun v => live v.1) d.
Proof. exact (bounded_truthful_at E cp room (Some e) r live d). Qed.
Lemma frugal_truthful_seek r (live : W -> Prop) d : truthful_seek E r live d -> truthful_seek (u_env U) r (fun v => live v.1) d.
Proof. exact (bounded_truthful_seek E cp room (Some e) r live d). Qed.
Lemma frugal_ends_at r (live : W -> Prop) d early : ends_at E r live d early -> ends_at (u_env U) r (fun v => live v.1) d early.
Proof. exact (bounded_ends_at E cp room (Some e) r live d early). Qed.
Lemma frugal_ends_seek r (live : W -> Prop) d early : ends_seek E r live d early -> ends_seek (u_env U) r (fun v => live v.1) d early.
Proof. exact (bounded_ends_seek E cp room (Some e) r live d early). Qed.
End F.

(** What is observed of Serve of the Response 0 on the ResponseWriter 0: the outcome and
    the bytes that the client got. *)
Definition got_on {W} (U : uenv (W * bytes)) (s : state (W * bytes)) : out reply * bytes :=
  let x := texec U 99 (TDo (RServe 0 1)) s in (x.2, (v_v (world x.1)).2).
