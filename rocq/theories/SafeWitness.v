(** * Clients that run out of room, used by the examples only *)
From stdpp Require Import gmap.
From Verif Require Import WitnessServe LengthWitness SafeSpec.

(** As [saloon], but the ResponseWriters take [room] bytes together; a Write that does
    not fit takes as much as does and reports [e]. *)
Definition bounded {W} (E : env W) (cp : wcaps) (room : nat) (e : option error) : uenv (W * bytes) :=
  let U := saloon E cp in
  {| u_env :=
       {| ev_caps := ev_caps (u_env U); ev_read := ev_read (u_env U); ev_readat := ev_readat (u_env U); ev_seek := ev_seek (u_env U);
          ev_close := ev_close (u_env U); ev_stat := ev_stat (u_env U);
          ev_write := fun v _ p =>
            let k := Nat.min (length p) (room - length v.2) in
            ((v.1, v.2 ++ take k p), inl (Z.of_nat k, if (k <? length p)%nat then e else None)) |};
     u_hazard := u_hazard U; u_caps := u_caps U; u_map := u_map U; u_writeheader := u_writeheader U; u_push := u_push U; u_flush := u_flush U;
     u_readfrom := u_readfrom U; u_redirect := u_redirect U; u_error := u_error U; u_onpanic := u_onpanic U; u_mime := u_mime U;
     u_statustext := u_statustext U; u_grow := u_grow U |}.

Section B.
Context {W : Type} (E : env W) (cp : wcaps) (room : nat).
Lemma bounded_fair e u : fair_writer (bounded E cp room (Some e)) u.
Proof. intros v p v' n. cbn -[Nat.ltb Nat.min]. destruct (Nat.ltb _ _) eqn:Hk; [done|]. intros [= <- <-]. apply Nat.ltb_ge in Hk. unfold zlen. lia. Qed.
Lemma bounded_go e : go_env E -> go_uenv (bounded E cp room e).
Proof. exact (saloon_go E cp). Qed.
Lemma bounded_calm e (R : W -> W -> Prop) : (forall w, R w w) -> calm (bounded E cp room e) (fun v v' => R v.1 v'.1).
Proof. intros HR. destruct (saloon_calm E cp R HR). by constructor. Qed.
Lemma bounded_until e r (live : W -> Prop) : until_closed E r live -> until_closed (u_env (bounded E cp room e)) r (fun v => live v.1).
Proof. intros [H1 H2 H3 H4 H5 H6]. constructor; intros; cbn; auto. Qed.
Lemma bounded_serves_at e r (live : W -> Prop) d early : serves_at E r live d early -> serves_at (u_env (bounded E cp room e)) r (fun v => live v.1) d early.
Proof. intros H. split; [by apply bounded_until, H|]. exact (proj2 (saloon_serves_at E cp r live d early H)). Qed.
Lemma bounded_serves_seek e r (live : W -> Prop) d early : serves_seek E r live d early -> serves_seek (u_env (bounded E cp room e)) r (fun v => live v.1) d early.
Proof. intros H. split; [by apply bounded_until, H|]. exact (proj2 (saloon_serves_seek E cp r live d early H)). Qed.
Lemma bounded_streams e r (gp : W -> nat) d er : streams E r gp d er -> streams (u_env (bounded E cp room e)) r (fun v => gp v.1) d er.
Proof. intros H. destruct (saloon_streams E cp r gp d er H). constructor; try done. Qed.
Lemma bounded_truthful_at e r (live : W -> Prop) d : truthful_at E r live d -> truthful_at (u_env (bounded E cp room e)) r (fun v => live v.1) d.
Proof.
  intros [H1 H2]. split; [by apply bounded_until|]. intros v p off v' n q err Hl Hoff. cbn.
  destruct (ev_readat _ _ _ _ _) as [w [[n' q'] err']] eqn:Hr. intros [= <- <- <- <-]. by eapply H2.
Qed.
Lemma bounded_truthful_seek e r (live : W -> Prop) d : truthful_seek E r live d -> truthful_seek (u_env (bounded E cp room e)) r (fun v => live v.1) d.
Proof.
  intros [H1 H2]. split; [by apply bounded_until|]. intros v off v1 n1 Hl Hoff. cbn. destruct (ev_seek E v.1 r off SeekStart) as [w1 [n1' er]] eqn:Hs. intros [= <- <- ->].
  intros p w' n q err. cbn. destruct (ev_read _ _ _ _) as [w [[n' q'] err']] eqn:Hr. intros [= <- <- <- <-]. by eapply H2.
Qed.
Lemma bounded_ends_at e r (live : W -> Prop) d early : ends_at E r live d early -> ends_at (u_env (bounded E cp room e)) r (fun v => live v.1) d early.
Proof.
  intros [H1 H2]. split; [by apply bounded_serves_at|]. intros v p off v' n q err Hl Hoff. cbn.
  destruct (ev_readat _ _ _ _ _) as [w [[n' q'] err']] eqn:Hr. intros [= <- <- <- <-]. by eapply H2.
Qed.
Lemma bounded_ends_seek e r (live : W -> Prop) d early : ends_seek E r live d early -> ends_seek (u_env (bounded E cp room e)) r (fun v => live v.1) d early.
Proof.
  intros [H1 H2]. split; [by apply bounded_serves_seek|]. intros v off Hl Hoff. cbn. destruct (H2 v.1 off Hl Hoff) as (v1 & n1 & Hs & Hrd). rewrite Hs.
  eexists _, n1. split; [done|]. intros p w' n q err. cbn. destruct (ev_read _ _ _ _) as [w [[n' q'] err']] eqn:Hr. intros [= <- <- <- <-]. by eapply Hrd.
Qed.
End B.

(** What is observed of Serve of the Response 0 on the ResponseWriter 0: the outcome
    and the Writes. *)
Definition served_on {V} (U : uenv V) (s : state V) : out reply * list (bytes * (Z * option error + panic)) :=
  let x := texec U 99 (TDo (RServe 0 1)) s in (x.2, client_writes (drop (length (wlog s)) (wlog x.1))).
(** A Response whose body is [i]. *)
Definition response_of (i : nat) : list tcmd := builder_of i ++ [TDo (RBuild 0)].
Lemma serving_now {V} (U : uenv V) s (o : out reply) ws : served_on U s = (o, ws) -> take (length (wlog s)) (wlog (texec U 99 (TDo (RServe 0 1)) s).1) = wlog s ->
  exists s' new, serving U 99 s 0 1 s' o new /\ client_writes new = ws.
Proof.
  unfold served_on, serving. intros [= <- <-] Ht. eexists _, _. split; [split; [apply surjective_pairing|]|reflexivity]. rewrite <- Ht at 1. symmetry. apply take_drop.
Qed.

(** bytesBody.WriteTo returns what Write returned (body/bytes.go). *)
Lemma short_write : exists (U : uenv (nat * bytes)) s s' new b,
  h_b (s_h s) !! 1%nat = Some (BBytes b) /\ left_in b = bs "llo world" /\ target s 1 = Some (None, 0%nat) /\
  serving U 99 s 0 1 s' (ORet (YErr None)) new /\ client_writes new = [(bs "llo world", inl (4, None))].
Proof.
  set (U := bounded (lone (hello plain 3)) no_caps 4 None).
  set (s := after U 99 (open_saloon 0%nat 1) (TDo (RB (NewString "hello world")) :: TDo (RB (Call 1 (Read (buf 2)))) :: response_of 1)).
  destruct (serving_now U s (ORet (YErr None)) [(bs "llo world", inl (4, None))]) as (s' & new & H1 & H2); [by vm_compute..|].
  exists U, s, s', new. eexists. split; [by vm_compute|]. split; [by vm_compute|]. split; [by vm_compute|]. by split.
Qed.
