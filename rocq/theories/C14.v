(** * C14 — Buffered read-ahead is bounded and never passes the declared length *)
From stdpp Require Import gmap.
From Verif Require Import StreamSpec Witness.
From Verif Require ProofsStream.

(** A Read on any open handle [j], at [pos], after any program.  [read_ahead]: the
    Reader is not called if it has delivered the bytes asked for, and no buffer
    passed to it reaches 65536 bytes beyond the last byte asked for. *)
Theorem C14_bounded_read_ahead :
  forall (W : Type) (E : env W) (fuel : nat) (r : rid) (w : W) h1 i cs h2 os (D : Z) j pos ended p h3 o,
  wrapped_once E fuel r w h1 i cs h2 os -> streaming E fuel r h1 i D ->
  follows {[ i := At 0 false ]} cs os !! j = Some (At pos ended) ->
  zlen p <= max_slice ->
  exec E fuel h2 (Call j (Read p)) = (h3, o) -> feasible h3 ->
  exists evs, calls_on r (h_log h3) = calls_on r (h_log h2) ++ evs /\
    if ended then evs = [] else read_ahead r (calls_on r (h_log h2)) evs pos p.
Proof. exact @ProofsStream.bounded_read_ahead. Qed.
Print Assumptions C14_bounded_read_ahead.

(** No other call than Read reads the Reader, whatever it returns. *)
Theorem C14_other_calls :
  forall (W : Type) (E : env W) (fuel : nat) (r : rid) (w : W) h1 i cs h2 os (D : Z) j pos ended f h3 o,
  wrapped_once E fuel r w h1 i cs h2 os -> streaming E fuel r h1 i D ->
  follows {[ i := At 0 false ]} cs os !! j = Some (At pos ended) ->
  go_op f ->
  exec E fuel h2 (Call j f) = (h3, o) -> feasible h3 ->
  let L := calls_on r (h_log h2) in
  let L' := calls_on r (h_log h3) in
  exists evs, L' = L ++ evs /\ calls_made r L evs pos ended f /\
    (forall x, o = ORet x -> stream_answer D (stream L') (terminal D L') r pos ended f x).
Proof. exact @ProofsStream.one_call. Qed.
Print Assumptions C14_other_calls.

(** Every buffer ever passed to the Reader ends within the declared length [D]. *)
Theorem C14_within_length :
  forall (W : Type) (E : env W) (fuel : nat) (r : rid) (w : W) h1 i cs h2 os (D : Z) before r' len n got err after,
  wrapped_once E fuel r w h1 i cs h2 os -> streaming E fuel r h1 i D -> 0 <= D ->
  calls_on r (h_log h2) = before ++ EvRead r' len n got err :: after -> zlen (stream before) + len <= D.
Proof. exact @ProofsStream.within_length. Qed.
Print Assumptions C14_within_length.

(** A Read of three bytes at position 2; then the same with a declared length. *)
Example C14_example :
  let E := lone (hello plain 4) in
  let cs := [Call 1 (Read (buf 2))] in
  let h1 := fst (exec E 9 (initial 0%nat) (NewReader 0)) in
  let x := history E 9 h1 cs in
  let h1' := fst (exec E 9 (initial 0%nat) (NewReaderLen 0 9)) in
  let x' := history E 9 h1' cs in
  wrapped_once E 9 0 0%nat h1 1 cs (fst x) (snd x) /\ streaming E 9 0 h1 1 (-1) /\
  wrapped_once E 9 0 0%nat h1' 1 cs (fst x') (snd x') /\ streaming E 9 0 h1' 1 9 /\
  follows {[ 1%nat := At 0 false ]} cs (snd x) !! 1%nat = Some (At 2 false) /\
  calls_on 0 (h_log (fst x)) = [EvRead 0 65536 4 (bs "hell") None; EvRead 0 65532 4 (bs "o wo") None; EvRead 0 65528 3 (bs "rld") None; EvRead 0 65525 0 [] (Some EOF)] /\
  calls_on 0 (h_log (fst x')) = [EvRead 0 9 4 (bs "hell") None; EvRead 0 5 4 (bs "o wo") None; EvRead 0 1 1 (bs "r") None].
Proof.
  cbv zeta. split; [|split; [|split; [|split]]].
  - split; [apply lone_go|]. exists [], []. eexists _, (NewReader 0).
    split; [repeat constructor; vm_compute; done|]. split; [repeat constructor; intros [|[? ?]]; congruence|]. split; [by left|].
    split; [vm_compute; reflexivity|]. split; [vm_compute; reflexivity|]. split; [apply surjective_pairing|]. split; vm_compute; done.
  - split; vm_compute; reflexivity.
  - split; [apply lone_go|]. exists [], []. eexists _, (NewReaderLen 0 9).
    split; [repeat constructor; vm_compute; done|]. split; [repeat constructor; intros [|[? ?]]; congruence|]. split; [right; by eexists|].
    split; [vm_compute; reflexivity|]. split; [vm_compute; reflexivity|]. split; [apply surjective_pairing|]. split; vm_compute; done.
  - split; vm_compute; reflexivity.
  - split; [vm_compute; reflexivity|]. split; vm_compute; reflexivity.
Qed.
