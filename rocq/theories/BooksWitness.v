(** * The books that the Adaptor keeps: examples *)
From stdpp Require Import gmap.
From Verif Require Import BooksSpec WitnessServe TemplateWitness CloseWitness.

Lemma club_reads_only {W} (E : env W) : reads_only (club E).
Proof.
  intros v u last v' f k H. cbn in H. destruct last as [[[]| |]|]; try (injection H as _ <-; done).
  destruct err as [[]|]; try discriminate; injection H as _ <-; done.
Qed.
(** Three Responses with the same text. *)
Definition menu : list tcmd :=
  [TDo (RB (NewString "hello")); TDo RNewBuilder; TDo (RBuilder 0 (WithBody (Some 1%nat))); TDo (RBuild 0); TDo (RCopy 0); TDo (RCopy 0)].
(** A page, by Builder 1. *)
Definition lost : handler :=
  HDo RNewBuilder (fun _ => HDo (RBuilder 1 (WithStatus 404)) (fun _ => HDo (RBuilder 1 (WithJSON (inl (bs "{}")))) (fun _ => HDo (RBuild 1) (fun _ => HReturn (Some 3%nat))))).
(** Writes to the first client fail; the third one's Handler panics; the second one asks
    again, by HEAD, for a page that the Handler builds. *)
Definition evening : list tcmd :=
  menu ++ [TServe (HReturn (Some 0%nat)) (Some 1%nat) false; TServe (HReturn (Some 1%nat)) (Some 2%nat) false;
           TServe (HPanic (Some (PError (External 1)))) (Some 3%nat) false; TServe lost (Some 2%nat) true;
           TServe (HReturn (Some 2%nat)) (Some 3%nat) false].
Lemma evening_server : Forall (server 3) evening.
Proof.
  unfold evening, menu. cbn [app]. repeat (apply Forall_cons; split; [|]); try apply Forall_nil; try exact I; (split; [lia|]); try exact I.
  do 4 (split; [exact I|]; intros _). exact I.
Qed.
(** The same client through a Writer that is wrapped already, twice. *)
Definition wrapped_before : list tcmd :=
  menu ++ [TDo (RNewWriter (Some 2%nat) false); TServe (HReturn (Some 0%nat)) (Some 4%nat) false; TServe (HReturn (Some 1%nat)) (Some 4%nat) false].
