(** * C02 — ReaderAt-backed bodies are independent ideal cursors *)
From stdpp Require Import gmap.
From Verif Require Import SourceSpec WitnessSource.
From Verif Require Source.

(** [r] is a Reader whose ReadAt serves the bytes [d] as long as it is not closed
    ([live]).  The program wraps it, after doing anything else, into the Body [i];
    [cs] is everything the program does afterwards, with this Body, its copies and
    any other Bodies.  [D] is the length announced, which is the one passed to the
    constructor or the one found by it.  Then all that is observed through [i] and
    its copies is what independent cursors over the first [D] bytes of [d] show
    ([fam_trace]).  [early]: the source may report EOF along with the last bytes;
    then so may the Body. *)
Theorem C02_readerat_cursors :
  forall (W : Type) (E : env W) (fuel : nat) (r : rid) (live : W -> Prop) (d : bytes) (early : bool),
  serves_at E r live d early -> cp_readerat (ev_caps E r) = true ->
  forall (w : W) h1 i cs h2 os (D : Z),
  live w -> wrapped_once E fuel r w h1 i cs h2 os -> announces E fuel h1 i D -> 0 <= D <= zlen d ->
  fam_trace (first_bytes r early D d) {[ i := At 0 false ]} cs os.
Proof. exact @Source.cursors_at. Qed.
Print Assumptions C02_readerat_cursors.

(** Nine of the eleven bytes, two handles, and another Body in between. *)
Example C02_example :
  let E := archive (bs "hello world") random_access true (Some 3%nat) in
  let cs := [Call 1 (Read (buf 4)); Call 1 Copy; NewBytes (bs "other"); Call 3 (Read (buf 2)); Call 2 (Read (buf 9)); Call 1 (Read (buf 5));
             Call 2 (Seek (-3) 2); Call 2 (Read (buf 3)); Call 1 (ReadAt (buf 4) 6); Call 1 Close; Call 2 BytesRemaining; Call 2 Close] in
  let x := exec E 0 (initial (false, 0%nat)) (NewReaderLen 0 9) in
  let y := history E 0 (fst x) cs in
  serves_at E 0 alive (bs "hello world") true /\ cp_readerat (ev_caps E 0) = true /\ alive (false, 0%nat) /\
  wrapped_once E 0 0 (false, 0%nat) (fst x) 1 cs (fst y) (snd y) /\ announces E 0 (fst x) 1 9 /\
  snd y = [ORet (RRead 4 (bs "hell") None); ORet (RBody 2 None); ORet (RBody 3 None); ORet (RRead 2 (bs "ot") None);
           ORet (RRead 5 (bs "o wor" ++ buf 4) (Some EOF)); ORet (RRead 5 (bs "o wor") None);
           ORet (RSeek 6 None); ORet (RRead 3 (bs "wor") None); ORet (RRead 3 (bs "wor" ++ buf 1) (Some EOF)); ORet (RErr None);
           ORet (RInt 0); ORet (RErr None)] /\
  h_w (fst y) = (true, 0%nat).
Proof.
  cbv zeta. split; [apply archive_serves_at|]. split; [done|]. split; [done|]. split.
  { split; [apply archive_go|]. exists [], []. eexists _, (NewReaderLen 0 9).
    split; [repeat constructor; vm_compute; done|]. split; [repeat constructor; intros [|[? ?]]; congruence|]. split; [right; by eexists|].
    split; [vm_compute; reflexivity|]. split; [vm_compute; reflexivity|]. split; [apply surjective_pairing|]. split; vm_compute; done. }
  split; [vm_compute; reflexivity|]. split; vm_compute; reflexivity.
Qed.
