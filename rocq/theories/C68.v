(** * C68: An answer without a body still reads its Body to the end *)
From stdpp Require Import gmap.
From Verif Require Import DrainSpec WitnessServe.
From Verif Require DrainMain.

(** HEAD, or the status 204.  Nothing is sent, but Serve returns nil only if the Body was
    read until it reported EOF, and no other error, and was then closed without an error:
    from a state [s0] in which only the clients have been called, by Reads.  So an error of
    the source is not lost just because nobody gets the bytes.  The Writer may be of any kind. *)
Theorem C68_serve : forall (V : Type) (U : uenv V) (fuel : nat) (i : nat), forall s r x k s',
  of_reader s i -> s_rps s !! r = Some x -> rp_body x = Some i -> bodiless s k (rp_code x) = true ->
  texec U fuel (TDo (RServe r k)) s = (s', ORet (YErr None)) ->
  exists s0 s1 m, s_h s0 = heap_w (s_h s) (world s0) /\ drained U fuel i s0 m EOF s1 /\
    texec U fuel (TDo (RB (Call i Close))) s1 = (s', ORet (YBody (RErr None))).
Proof. exact @DrainMain.head_serve. Qed.
Print Assumptions C68_serve.

(** ReadFrom of such a Writer, once the status is sent: it calls nothing but Read, and
    returns the number of bytes and the error that Read reported. *)
Theorem C68_readfrom : forall (V : Type) (U : uenv V) (fuel : nat) (i : nat), forall k s st s' n err,
  of_reader s i -> reports U fuel s k WStatus (YInt st) -> st <> 0 -> bodiless s k st = true ->
  texec U fuel (TDo (RWriter k (WReadFrom i))) s = (s', ORet (YCount n err)) ->
  exists m e, drained U fuel i s m e s' /\ n = wrap64 m /\ err = but_eof e.
Proof. exact @DrainMain.head_readfrom. Qed.
Print Assumptions C68_readfrom.

(** ** Examples *)

(** A Writer that has ReadFrom, or not, for a HEAD request, and a stream that ends well. *)
Example C68_example_serve :
  let run cp := after (saloon (lone (hello plain 3)) cp) 99 (open_saloon 0%nat 1)
    [TDo (RB (NewReader 0)); TDo RNewBuilder; TDo (RBuilder 0 (WithBody (Some 1%nat))); TDo (RBuild 0); TDo (RNewWriter (Some 1%nat) true)] in
  forall cp, cp = all_caps \/ cp = no_caps ->
  of_reader (run cp) 1 /\ (exists x, s_rps (run cp) !! 0%nat = Some x /\ rp_body x = Some 1%nat /\ bodiless (run cp) 2 (rp_code x) = true) /\
  (texec (saloon (lone (hello plain 3)) cp) 99 (TDo (RServe 0 2)) (run cp)).2 = ORet (YErr None).
Proof.
  cbv zeta. intros cp [->| ->]; (split; [by vm_compute|]); (split; [eexists; split; [vm_compute; reflexivity|]; split; by vm_compute|]); by vm_compute.
Qed.
(** The stream fails after five bytes; the status is sent already. *)
Example C68_example_readfrom :
  let U := saloon (lone {| so_data := bs "hello"; so_caps := plain; so_chunk := 3; so_last := External 7; so_close := None |}) all_caps in
  let s := after U 99 (open_saloon 0%nat 1) [TDo (RB (NewReader 0)); TDo (RNewWriter (Some 1%nat) true); TDo (RWriter 2 (WWriteHeader 200))] in
  of_reader s 1 /\ reports U 99 s 2 WStatus (YInt 200) /\ bodiless s 2 200 = true /\
  (texec U 99 (TDo (RWriter 2 (WReadFrom 1))) s).2 = ORet (YCount 5 (Some (External 7))).
Proof. cbv zeta. split; [by vm_compute|]. split; [vm_compute; reflexivity|]. split; by vm_compute. Qed.
