(** * C01 — in-memory bodies are independent ideal cursors *)
From stdpp Require Import gmap.
From Verif Require Import Spec Witness.
From Verif Require Proofs01.

(** Whatever happened before ([h] is any heap) and whatever else the program
    does ([cs] is any list of calls and constructors), the Body made from the
    bytes [d] and everything copied from it answer like the ideal family of
    cursors over [d] (Spec.v). *)
Theorem C01_in_memory_cursors :
  forall (W : Type) (E : env W) (fuel : nat) (h : heap W) (c : cmd) (d : bytes),
  c = NewBytes d \/ (exists s, c = NewString s /\ list_ascii_of_string s = d) \/ (c = NewEmpty /\ d = []) ->
  go_cmd c ->
  exists h1 i, exec E fuel h c = (h1, ORet (RBody i None)) /\ h_b h !! i = None /\
  forall cs h2 os, Forall go_cmd cs -> history E fuel h1 cs = (h2, os) ->
  fam_trace (mem_family d) {[ i := At 0 false ]} cs os.
Proof. exact Proofs01.in_memory_cursors. Qed.
Print Assumptions C01_in_memory_cursors.

(** A Body over "hello world", a copy read in between, a Seek, and the calls
    they answer. *)
Example C01_example :
  let prog := [Call 1 (Read (buf 4)); Call 1 Copy; Call 1 (Seek (-3) 2); Call 1 (Read (buf 9));
               Call 2 (Read (buf 3)); Call 1 Close; Call 1 (Read (buf 1)); Call 2 BytesRemaining] in
  let c := NewString "hello world" in
  go_cmd c /\ Forall go_cmd prog /\
  snd (history (demo []) 0 (fst (exec (demo []) 0 (initial []) c)) prog) =
    [ORet (RRead 4 (bs "hell") None); ORet (RBody 2 None); ORet (RSeek 8 None);
     ORet (RRead 3 (bs "rld" ++ buf 6) (Some EOF)); ORet (RRead 3 (bs "o w") None);
     ORet (RErr None); ORet (RRead 0 (buf 1) (Some ErrClosed)); ORet (RInt 4)].
Proof. split; [vm_compute; congruence|]. split; [|vm_compute; reflexivity]. repeat constructor; vm_compute; congruence. Qed.
