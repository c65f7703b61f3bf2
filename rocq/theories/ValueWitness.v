(** * Builders and Responses as values: examples *)
From stdpp Require Import gmap.
From Verif Require Import ClientSpec WitnessServe TemplateWitness.

Lemma club_handed {W} (E : env W) : clients_among (club E) 3.
Proof. intros v u. cbn -[Nat.min]. lia. Qed.
Lemma club_plainly {W} (E : env W) fuel (w : W) cs : Forall (each_in (mindful 3)) cs -> calls_return (thistory (club E) fuel (open_saloon w 3) cs).2 = true ->
  mindfully (club E) fuel 3 (after (club E) fuel (open_saloon w 3) cs).
Proof.
  intros Hg Hn%no_spin. unfold after. exists (w, []), 3%nat, (replicate 3 ∅), [], cs. eexists. split; [done|]. split.
  - intros m x Hx key v Hv. apply lookup_replicate in Hx as [-> _]. by rewrite lookup_empty in Hv.
  - split; [done|]. split; [apply surjective_pairing|done].
Qed.
Lemma club_within {W} (E : env W) fuel (w : W) cs : Forall (each_in (mindful 3)) cs -> Forall (each_in (go_rcmd (club E))) cs ->
  calls_return (thistory (club E) fuel (open_saloon w 3) cs).2 = true -> mindfully_within (club E) fuel 3 (after (club E) fuel (open_saloon w 3) cs).
Proof.
  intros Hm Hg Hn%no_spin. unfold after. exists (w, []), 3%nat, (replicate 3 ∅), [], cs. eexists. split; [done|]. split.
  - intros m x Hx key v Hv. apply lookup_replicate in Hx as [-> _]. by rewrite lookup_empty in Hv.
  - split; [done|]. split; [done|]. split; [apply surjective_pairing|done].
Qed.
Lemma traffic_plain i : Forall (each_in (mindful 3)) (traffic i).
Proof.
  unfold traffic. do 3 (apply Forall_cons; split; [split; [done|]; intros [[| | | | | | |h err]| |]; try done; by destruct h, err|]).
  repeat (apply Forall_cons; split; [done|]). by apply Forall_nil.
Qed.

(** A Body, and two Builders. *)
Definition before : list tcmd := map TDo [RB (NewString "hello world"); RNewBuilder].
(** A Handler that makes a Response of its own with Builder 1, and sets a header of its
    client by hand. *)
Definition meanwhile : handler :=
  HDo (RBuilder 1 (WithHeader "X-A" "other" true)) (fun _ =>
  HDo (RBuilder 1 (ErrorPage 503 (Some ErrClosed))) (fun _ =>
  HDo (RMap (HSet 1 "Vary" ["*"] 0)) (fun _ =>
  HDo (RBuild 1) (fun o => match o with ORet (YHandle r) => HReturn r | _ => HPanic None end)))).
(** Builder 0 is used; its copy, Builder 1, is used by a request in between.  WithStatus 7 raises. *)
Definition setup : list tcmd :=
  map TDo [RBuilder 0 (WithHeader "x-a" "1" true); RBuilder 0 (WithStatus 404); RCopyBuilder 0] ++
  [TServe meanwhile (Some 2%nat) false] ++
  map TDo [RBuilder 0 (WithHeader "X-A" "2" true); RBuilder 0 (WithStatus 7); RBuilder 0 (WithBody (Some 1%nat))].
Lemma setup_plain : Forall (each_in (mindful 3)) setup.
Proof.
  unfold setup, meanwhile. cbn [map app]. do 3 (apply Forall_cons; split; [done|]). apply Forall_cons; split.
  { split; [done|]. intros _. split; [done|]. intros _. split; [cbn; lia|]. intros _. split; [done|]. by intros [[]| |]. }
  do 3 (apply Forall_cons; split; [done|]). by apply Forall_nil.
Qed.
Lemma setup_simply : Forall (uses_simply 0) setup.
Proof.
  unfold setup, meanwhile. cbn [map app]. do 2 (apply Forall_cons; split; [right; eexists; done|]). apply Forall_cons; split; [by left|]. apply Forall_cons; split.
  { left. split; [done|]. intros _. split; [done|]. intros _. split; [done|]. intros _. split; [done|]. by intros [[]| |]. }
  do 3 (apply Forall_cons; split; [right; eexists; done|]). by apply Forall_nil.
Qed.

(** Builder 0 is used by Handlers. *)
Definition shop (f : bdop) : handler := HDo (RBuilder 0 f) (fun _ => HReturn None).
Definition changing : list tcmd :=
  [TDo (RBuilder 0 (WithStatus 404)); TServe (shop (ErrorPage 503 (Some ErrClosed))) (Some 2%nat) false; TDo (RBuilder 0 (WithHeader "X-A" "1" true));
   TServe (shop (WithProto (Some (inl (bs "pb"))))) (Some 2%nat) true; TDo (RBuilder 0 (RedirectPage 200 "/")); TDo (RBuilder 0 (WithBody (Some 1%nat)))].
Lemma changing_plain : Forall (each_in (mindful 3)) changing.
Proof. unfold changing, shop. repeat (apply Forall_cons; split; [done|]). by apply Forall_nil. Qed.
Lemma changing_go {W} (E : env W) : Forall (each_in (go_rcmd (club E))) changing.
Proof.
  unfold changing, shop. apply Forall_cons; split; [done|]. apply Forall_cons; split; [split; [by vm_compute|done]|]. apply Forall_cons; split; [done|].
  apply Forall_cons; split; [split; [intros src ct g [= <- <- <-]; by vm_compute|done]|]. apply Forall_cons; split; [by vm_compute|].
  apply Forall_cons; split; [done|]. by apply Forall_nil.
Qed.
Lemma setup_go {W} (E : env W) : Forall (each_in (go_rcmd (club E))) setup.
Proof.
  unfold setup, meanwhile. cbn [map app]. do 3 (apply Forall_cons; split; [done|]). apply Forall_cons; split.
  { split; [done|]. intros _. split; [by vm_compute|]. intros _. split; [done|]. intros _. split; [done|]. by intros [[]| |]. }
  do 3 (apply Forall_cons; split; [done|]). by apply Forall_nil.
Qed.
