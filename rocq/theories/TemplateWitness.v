(** * Templates: examples, and where the property ends *)
From stdpp Require Import gmap.
From Verif Require Import TemplateSpec WitnessServe.

(** As [saloon], with three clients; all Writes to the first one fail.  The bytes the
    other two have received are kept together. *)
Definition club {W} (E : env W) : uenv (W * bytes) :=
  let U := saloon E no_caps in
  {| u_env :=
       {| ev_caps := ev_caps (u_env U); ev_read := ev_read (u_env U); ev_readat := ev_readat (u_env U); ev_seek := ev_seek (u_env U);
          ev_close := ev_close (u_env U); ev_stat := ev_stat (u_env U);
          ev_write := fun v u p => if (u =? 0)%nat then (v, inl (0, Some ErrShortWrite)) else ev_write (u_env U) v u p |};
     u_hazard := u_hazard U; u_caps := u_caps U; u_map := fun _ u => Nat.min u 2; u_writeheader := u_writeheader U; u_push := u_push U; u_flush := u_flush U;
     u_readfrom := u_readfrom U; u_redirect := u_redirect U; u_error := u_error U; u_onpanic := u_onpanic U; u_mime := u_mime U;
     u_statustext := u_statustext U; u_grow := u_grow U |}.
Definition calls_return {A} (os : list (out A)) : bool := forallb (fun o => match o with OSpin => false | _ => true end) os.
Lemma no_spin {A} (os : list (out A)) : calls_return os = true -> OSpin ∉ os.
Proof.
  induction os as [|o os IH]; [intros _; apply not_elem_of_nil|]. cbn. intros [H1 H2]%andb_prop. apply not_elem_of_cons. split; [by destruct o|auto].
Qed.
Section C.
Context {W : Type} (E : env W).
Notation U := (club E).
Lemma club_go : go_env E -> go_uenv U.
Proof. exact (saloon_go E no_caps). Qed.
Lemma club_accepts u : u <> 0%nat -> accepting U u snd.
Proof.
  intros Hu. destruct (saloon_accepts E no_caps u) as [H1 H2 H3 H4 H5 H6 H7 H8 H9 H10 H11]. constructor; try done.
  intros v p. cbn -[Nat.eqb]. apply Nat.eqb_neq in Hu as ->. by eexists.
Qed.
Lemma club_calm (R : W -> W -> Prop) : (forall w, R w w) -> calm U (fun v v' => R v.1 v'.1).
Proof.
  intros HR. destruct (saloon_calm E no_caps R HR). constructor; try done. intros v u p. cbn -[Nat.eqb]. by destruct (_ =? _)%nat.
Qed.
Lemma club_until r (live : W -> Prop) : until_closed E r live -> until_closed (u_env U) r (fun v => live v.1).
Proof.
  intros [H1 H2 H3 H4 H5 H6]. constructor; intros; cbn -[Nat.eqb]; auto; by destruct (_ =? _)%nat.
Qed.
Lemma club_serves_at r (live : W -> Prop) d early : serves_at E r live d early -> serves_at (u_env U) r (fun v => live v.1) d early.
Proof. intros H. split; [by apply club_until, H|]. exact (proj2 (saloon_serves_at E no_caps r live d early H)). Qed.
Lemma club_serves_seek r (live : W -> Prop) d early : serves_seek E r live d early -> serves_seek (u_env U) r (fun v => live v.1) d early.
Proof. intros H. split; [by apply club_until, H|]. exact (proj2 (saloon_serves_seek E no_caps r live d early H)). Qed.
Lemma club_streams r (gp : W -> nat) d e : streams E r gp d e -> streams (u_env U) r (fun v => gp v.1) d e.
Proof.
  intros H. destruct (saloon_streams E no_caps r gp d e H). constructor; try done. intros; cbn -[Nat.eqb]. by destruct (_ =? _)%nat.
Qed.
Lemma club_reached fuel (w : W) cs : Forall (each_in (go_rcmd U)) cs -> calls_return (thistory U fuel (open_saloon w 3) cs).2 = true ->
  reached U fuel (after U fuel (open_saloon w 3) cs).
Proof.
  intros Hg Hn%no_spin. unfold after. eexists _, _, _, _, cs, _. split; [|split; [done|split; [apply surjective_pairing|done]]].
  intros m x Hx key v Hv. apply lookup_replicate in Hx as [-> _]. by rewrite lookup_empty in Hv.
Qed.
End C.

(** The template 0: a Response with one header and the body [i]. *)
Definition respond (i : nat) : list tcmd := map TDo [RNewBuilder; RBuilder 0 (WithHeader "X-A" "1" true); RBuilder 0 (WithBody (Some i)); RBuild 0].
Lemma respond_go {V} (U : uenv V) i : Forall (each_in (go_rcmd U)) (respond i).
Proof. unfold respond. cbn [map]. repeat (apply Forall_cons; split; [done|]). by apply Forall_nil. Qed.
Lemma respond_spares i rd : Forall (each_in (spares rd)) (respond i).
Proof. unfold respond. cbn [map]. repeat (apply Forall_cons; split; [done|]). by apply Forall_nil. Qed.
Lemma club_made {W} (E : env W) fuel (w : W) c cs : go_cmd c -> Forall (each_in (go_rcmd (club E))) cs ->
  calls_return (thistory (club E) fuel (open_saloon w 3) (TDo (RB c) :: cs)).2 = true ->
  reached (club E) fuel (after (club E) fuel (after (club E) fuel (open_saloon w 3) [TDo (RB c)]) cs).
Proof.
  intros Hc Hcs Hn. assert (Heq : after (club E) fuel (after (club E) fuel (open_saloon w 3) [TDo (RB c)]) cs = after (club E) fuel (open_saloon w 3) (TDo (RB c) :: cs)).
  { unfold after. cbn [thistory] in *. destruct (texec _ _ _ _) as [s []]; cbn in *; try done; by destruct (thistory _ _ s cs). }
  rewrite Heq. apply club_reached; [by constructor|done].
Qed.
(** A request whose client fails, one that is answered in full, a HEAD request, a copy of
    the body [i] that is read and closed. *)
Definition traffic (i : nat) : list tcmd :=
  [TServe (from_copy 0) (Some 1%nat) false; TServe (from_copy 0) (Some 2%nat) false; TServe (from_copy 0) (Some 2%nat) true;
   TDo (RB (Call i Copy)); TDo (RB (Call 5 (Read (buf 3)))); TDo (RB (Call 5 Close))].
Lemma traffic_bystander i : i <> 5%nat -> Forall (bystander 0 i) (traffic i).
Proof.
  intros Hi. do 3 (constructor; [apply by_request|]). constructor; [apply by_copy|]. do 2 (constructor; [apply by_body; intros f; congruence|]). constructor.
Qed.

Lemma some_default {A} (o : option A) (a : A) : (if o then true else false) = true -> o = Some (default a o).
Proof. by destruct o. Qed.
Lemma pair_snd {A B} (x : A * B) b : x.2 = b -> x = (x.1, b).
Proof. by destruct x as [? ?]; intros <-. Qed.
Lemma traffic_go {V} (U : uenv V) i : Forall (each_in (go_rcmd U)) (traffic i).
Proof.
  unfold traffic. do 3 (apply Forall_cons; split; [split; [done|]; intros [[| | | | | | |h err]| |]; try done; by destruct h, err|]).
  repeat (apply Forall_cons; split; [done|]). by apply Forall_nil.
Qed.
Lemma traffic_spares i rd : Forall (each_in (spares rd)) (traffic i).
Proof.
  unfold traffic. do 3 (apply Forall_cons; split; [split; [done|]; intros [[| | | | | | |h err]| |]; try done; by destruct h, err|]).
  repeat (apply Forall_cons; split; [cbn; intros [|[? ?]]; congruence|]). by apply Forall_nil.
Qed.
(** Serve assigns the Response's own slices of values to the client's header
    (response.go:91-95), and Copy copies the pointer to the header: the values a client's
    middleware changes in place are changed for all later clients. *)
Theorem header_shared : exists (U : uenv (nat * bytes)) s x X s3 s' Y,
  go_uenv U /\ reached U 99 s /\ s_rps s !! 0%nat = Some x /\ rp_body x = Some 1%nat /\ hview s (rp_hdrs x) = Some X /\ (forall v u, rp_hdrs x <> Some (u_map U v u)) /\
  thistory U 99 s [TServe (from_copy 0) (Some 1%nat) false; TDo (RMap (HElem 0 "X-A" 0 "changed"))] = (s3, [ORet YUnit; ORet YUnit]) /\
  target s3 2 = Some (None, 1%nat) /\ accepting U 1 snd /\ (forall v, u_map U v 1%nat = 1%nat) /\ view s3 1%nat = Some ∅ /\
  texec U 99 (TServe (from_copy 0) (Some 2%nat) false) s3 = (s', ORet YUnit) /\
  view s' 1%nat = Some Y /\ X !! "X-A" = Some ["1"] /\ Y !! "X-A" = Some ["changed"].
Proof.
  pose (U := club (lone (hello plain 3))).
  pose (s := after U 99 (open_saloon 0%nat 3) (TDo (RB (NewString "hello world")) :: respond 1)).
  pose (s3 := (thistory U 99 s [TServe (from_copy 0) (Some 1%nat) false; TDo (RMap (HElem 0 "X-A" 0 "changed"))]).1).
  pose (s' := (texec U 99 (TServe (from_copy 0) (Some 2%nat) false) s3).1).
  exists U, s, {| rp_code := 200; rp_hdrs := Some 3%nat; rp_body := Some 1%nat; rp_err := None |}, (default ∅ (hview s (Some 3%nat))), s3, s', (default ∅ (view s' 1%nat)).
  split; [apply club_go, lone_go|]. split; [apply (club_reached _ 99 0%nat); [constructor; [done|apply respond_go]|by vm_compute]|].
  split; [by vm_compute|]. split; [reflexivity|]. split; [apply some_default; by vm_compute|]. split.
  { intros v u. cbn -[Nat.min]. intros [= H]. lia. }
  split.
  { assert (H : (thistory U 99 s [TServe (from_copy 0) (Some 1%nat) false; TDo (RMap (HElem 0 "X-A" 0 "changed"))]).2 = [ORet YUnit; ORet YUnit]) by (vm_compute; reflexivity). exact (pair_snd _ _ H). }
  split; [by vm_compute|]. split; [by apply club_accepts|]. split; [done|].
  split; [apply (bool_decide_eq_true_1 _); by vm_compute|]. split.
  { assert (H : (texec U 99 (TServe (from_copy 0) (Some 2%nat) false) s3).2 = ORet YUnit) by (vm_compute; reflexivity). exact (pair_snd _ _ H). }
  split; [apply some_default; by vm_compute|]. split; by vm_compute.
Qed.
