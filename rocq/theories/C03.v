(** * C03 — Seeker-backed bodies are independent ideal cursors *)
From stdpp Require Import gmap.
From Verif Require Import SourceSpec WitnessSource.
From Verif Require Source.

(** As C02, for a Reader which can only seek: Seek to any place in [d] succeeds
    and the Read after it fills its buffer if [d] has that many bytes left.  All
    copies share the single cursor of this Reader, and yet are independent. *)
Theorem C03_seeker_cursors :
  forall (W : Type) (E : env W) (fuel : nat) (r : rid) (live : W -> Prop) (d : bytes) (early : bool),
  serves_seek E r live d early -> cp_readerat (ev_caps E r) = false -> cp_seeker (ev_caps E r) = true ->
  forall (w : W) h1 i cs h2 os (D : Z),
  live w -> wrapped_once E fuel r w h1 i cs h2 os -> announces E fuel h1 i D -> 0 <= D <= zlen d ->
  fam_trace (first_bytes r early D d) {[ i := At 0 false ]} cs os.
Proof. exact @Source.cursors_seek. Qed.
Print Assumptions C03_seeker_cursors.

Example C03_example :
  let E := archive (bs "hello world") seekable false None in
  let cs := [Call 1 (Read (buf 4)); Call 1 Copy; Call 2 (Seek 1 0); Call 1 (Read (buf 3)); Call 2 (Read (buf 3)); Call 1 (Read (buf 9));
             Call 1 (Read (buf 1)); Call 2 (Read (buf 7)); Call 2 (Read (buf 0)); Call 2 (Read (buf 1)); Call 2 Close; Call 1 Close] in
  let x := exec E 0 (initial (false, 0%nat)) (NewReader 0) in
  let y := history E 0 (fst x) cs in
  serves_seek E 0 alive (bs "hello world") false /\ cp_readerat (ev_caps E 0) = false /\ cp_seeker (ev_caps E 0) = true /\ alive (false, 0%nat) /\
  wrapped_once E 0 0 (false, 0%nat) (fst x) 1 cs (fst y) (snd y) /\ announces E 0 (fst x) 1 11 /\
  snd y = [ORet (RRead 4 (bs "hell") None); ORet (RBody 2 None); ORet (RSeek 1 None); ORet (RRead 3 (bs "o w") None);
           ORet (RRead 3 (bs "ell") None); ORet (RRead 4 (bs "orld" ++ buf 5) (Some EOF)); ORet (RRead 0 (buf 1) (Some EOF));
           ORet (RRead 7 (bs "o world") None); ORet (RRead 0 [] None); ORet (RRead 0 (buf 1) (Some EOF)); ORet (RErr None); ORet (RErr None)].
Proof.
  cbv zeta. split; [apply archive_serves_seek; done|]. split; [done|]. split; [done|]. split; [done|]. split.
  { split; [apply archive_go|]. exists [], []. eexists _, (NewReader 0).
    split; [repeat constructor; vm_compute; done|]. split; [repeat constructor; intros [|[? ?]]; congruence|]. split; [by left|].
    split; [vm_compute; reflexivity|]. split; [vm_compute; reflexivity|]. split; [apply surjective_pairing|]. split; vm_compute; done. }
  split; vm_compute; reflexivity.
Qed.

(** It is not enough that the source follows the usual rule for Readers
    ([fair_seek]: at least one byte per Read, EOF only at the end).  A Read of more
    bytes than are left then reports EOF although the source has delivered only
    part of them; the rest is lost for this handle and, the common length having
    been lowered, for every copy.  Here a source of 11 bytes delivering at most 4
    at a time: the first handle gets 4 bytes and EOF, the second finds 4 bytes left. *)
Theorem C03_refuted :
  exists (W : Type) (E : env W) (fuel : nat) (r : rid) (live : W -> Prop) (d : bytes) (w : W) h1 i cs h2 os (D : Z),
  fair_seek E r live d /\ cp_readerat (ev_caps E r) = false /\ cp_seeker (ev_caps E r) = true /\
  live w /\ wrapped_once E fuel r w h1 i cs h2 os /\ announces E fuel h1 i D /\ D = zlen d /\
  cs = [Call i Copy; Call i (Read (buf 20)); Call 2 BytesRemaining] /\
  os = [ORet (RBody 2 None); ORet (RRead 4 (bs "hell" ++ buf 16) (Some EOF)); ORet (RInt 4)] /\
  ~ fam_trace (first_bytes r false D d) {[ i := At 0 false ]} cs os /\ ~ fam_trace (first_bytes r true D d) {[ i := At 0 false ]} cs os.
Proof. exact Source.short_reads. Qed.
Print Assumptions C03_refuted.
