(** * A concrete client that takes whatever it is sent, used by the examples only *)
From stdpp Require Import gmap.
From Verif Require Export DeliverSpec WitnessResp WitnessSource.

(** The Readers of [E], and ResponseWriters that all append to one string. *)
Definition saloon {W} (E : env W) (cp : wcaps) : uenv (W * bytes) :=
  let keep {A} (v : W * bytes) (x : W * A) := ((x.1, v.2), x.2) in
  {| u_env :=
       {| ev_caps := ev_caps E;
          ev_read := fun v r p => keep v (ev_read E v.1 r p);
          ev_readat := fun v r p off => keep v (ev_readat E v.1 r p off);
          ev_seek := fun v r off wh => keep v (ev_seek E v.1 r off wh);
          ev_close := fun v r => keep v (ev_close E v.1 r);
          ev_stat := fun v r => keep v (ev_stat E v.1 r);
          ev_write := fun v _ p => ((v.1, v.2 ++ p), inl (zlen p, None)) |};
     u_hazard := fun _ _ => None;
     u_caps := fun _ => cp;
     u_map := fun _ u => u;
     u_writeheader := fun v _ _ => (v, None);
     u_push := fun v _ _ => (v, inl None);
     u_flush := fun v _ => (v, None);
     u_readfrom := fun v _ last =>
       match last with
       | Some (ORet (RRead n q err)) =>
           let got := v.2 ++ take (Z.to_nat n) q in
           ((v.1, got), match err with
                        | None => inl (Read (buf 8))
                        | Some EOF => inr (inl (zlen got, None))
                        | Some e => inr (inl (zlen got, Some e))
                        end)
       | _ => (v, inl (Read (buf 8)))
       end;
     u_redirect := fun v _ _ _ => (v, inl (None, None));
     u_error := fun v _ _ _ => (v, inl (None, None));
     u_onpanic := fun v _ _ => (v, None);
     u_mime := fun s => Some s;
     u_statustext := fun _ => "OK";
     u_grow := fun _ => 1%nat |}.

Section S.
Context {W : Type} (E : env W) (cp : wcaps).
Notation U := (saloon E cp).
Lemma saloon_go : go_env E -> go_uenv U.
Proof.
  intros [H1 H2]. split; [split|split; [|done]].
  - intros v r. cbn. apply H1.
  - intros v r off wh. cbn. apply H2.
  - intros v u last v' f. cbn. assert (Hb : go_op (Read (buf 8))) by done.
    destruct last as [[x| |]|]; try (intros [= <- <-]; exact Hb). destruct x; try (intros [= <- <-]; exact Hb). destruct err as [[]|]; try done. by intros [= <- <-].
Qed.
Lemma saloon_accepts u : accepting U u snd.
Proof.
  constructor; try done.
  - intros v p. by eexists.
  - intros v st. by eexists.
  - intros v url. by eexists _, None.
  - intros _ v. by eexists _, (buf 8).
  - intros _ v n q. by eexists _, (buf 8).
  - intros _ v n q. eexists _, _. split; [done|]. split; [apply Zle_0_nat|done].
Qed.
Lemma saloon_calm (R : W -> W -> Prop) : (forall w, R w w) -> calm U (fun v v' => R v.1 v'.1).
Proof.
  intros HR. constructor; intros; cbn; try apply HR. destruct last as [[x| |]|]; [destruct x|..]; apply HR.
Qed.
Lemma saloon_until r (live : W -> Prop) : until_closed E r live -> until_closed (u_env U) r (fun v => live v.1).
Proof. intros [H1 H2 H3 H4 H5 H6]. constructor; intros; cbn; auto. Qed.
Lemma saloon_serves_at r (live : W -> Prop) d early : serves_at E r live d early -> serves_at (u_env U) r (fun v => live v.1) d early.
Proof.
  intros [H1 H2]. split; [by apply saloon_until|]. intros v p off v' n q err Hl Hoff. cbn.
  destruct (ev_readat _ _ _ _ _) as [w [[n' q'] err']] eqn:Hr. intros [= <- <- <- <-]. by eapply H2.
Qed.
Lemma saloon_serves_seek r (live : W -> Prop) d early : serves_seek E r live d early -> serves_seek (u_env U) r (fun v => live v.1) d early.
Proof.
  intros [H1 H2]. split; [by apply saloon_until|]. intros v off Hl Hoff. cbn. destruct (H2 v.1 off Hl Hoff) as (v1 & n1 & Hs & Hrd). rewrite Hs.
  eexists _, n1. split; [done|]. intros p w' n q err. cbn. destruct (ev_read _ _ _ _) as [w [[n' q'] err']] eqn:Hr. intros [= <- <- <- <-]. by eapply Hrd.
Qed.
Lemma saloon_streams r (gp : W -> nat) d e : streams E r gp d e -> streams (u_env U) r (fun v => gp v.1) d e.
Proof.
  intros [H1 H2 H3 H4 H5 H6 H7]. constructor; intros; cbn; auto.
  revert H. cbn. destruct (ev_read _ _ _ _) as [v [[n' q'] err']] eqn:Hr. intros [= <- <- <- <-]. by eapply H1.
Qed.
End S.
(** The start: [n] ResponseWriters whose header maps are empty. *)
Definition open_saloon {W} (w : W) (n : nat) : state (W * bytes) := tinitial (w, []) n (replicate n ∅) [].
