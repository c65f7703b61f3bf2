(** * C20 — WriteTo of a byte Body *)
From stdpp Require Import gmap.
From Verif Require Import SeekSpec Witness.
From Verif Require SeekProofs.

(** [u] are the unread bytes.  WriteTo makes one call, Write [u]; a count the Writer
    must not return is met with a panic.  Afterwards the cursor has advanced by the
    count, as BytesRemaining and seeking to where it is and reading on show.  But
    before such a Seek, Read says EOF, even if [n] < zlen [u]. *)
Theorem C20_writes_unread :
  forall (W : Type) (E : env W) (fuel : nat) (h : heap W) (i : nat) (b : bytesBody),
  go_env E -> reaches E fuel h -> h_b h !! i = Some (BBytes b) -> by_closed b = false -> by_eof b = false ->
  exists u,
    exec E fuel h (Call i BytesRemaining) = (h, ORet (RInt (zlen u))) /\ (forall p, zlen p = zlen u -> exists h', exec E fuel h (Call i (Read p)) = (h', ORet (RRead (zlen u) u None))) /\ forall w w' ans, ev_write E (h_w h) w u = (w', ans) ->
    let hw := emit h w' (EvWrite w u ans) in
    match ans with
    | inr e => exec E fuel h (Call i (WriteTo w)) = (hw, OPanic e)
    | inl (n, err) =>
        (n < 0 \/ zlen u < n -> exec E fuel h (Call i (WriteTo w)) = (hw, OPanic PAssert)) /\ (0 <= n <= zlen u -> exists h' h'' pos,
          exec E fuel h (Call i (WriteTo w)) = (h', ORet (RWriteTo n err)) /\ h_log h' = h_log hw /\ h_w h' = w' /\ (forall j, j <> i -> h_b h' !! j = h_b h !! j) /\ exec E fuel h' (Call i BytesRemaining) = (h', ORet (RInt (zlen u - n))) /\ (forall p, exec E fuel h' (Call i (Read p)) = (h', ORet (RRead 0 p (Some EOF)))) /\ exec E fuel h' (Call i (Seek 0 1)) = (h'', ORet (RSeek pos None)) /\ (forall p, zlen p = zlen u - n -> exists h3, exec E fuel h'' (Call i (Read p)) = (h3, ORet (RRead (zlen u - n) (drop (Z.to_nat n) u) None))))
    end.
Proof. exact @SeekProofs.writes_unread. Qed.
Print Assumptions C20_writes_unread.

(** If EOF was reported, WriteTo writes nothing. *)
Theorem C20_at_end :
  forall (W : Type) (E : env W) (fuel : nat) (h : heap W) (i : nat) (b : bytesBody) (w : wid),
  h_b h !! i = Some (BBytes b) -> by_closed b = false -> by_eof b = true -> exec E fuel h (Call i (WriteTo w)) = (h, ORet (RWriteTo 0 None)).
Proof. exact @SeekProofs.writes_nothing_more. Qed.
Print Assumptions C20_at_end.

(** After a short write BytesRemaining is positive, yet nothing can be read. *)
Theorem C20_refuted :
  exists (W : Type) (E : env W) (fuel : nat) (w : W) (d : bytes) (n rem : Z) (err : error) h,
  go_env E /\ 0 < rem /\
  history E fuel (initial w) [NewBytes d; Call 1 (WriteTo 0); Call 1 BytesRemaining; Call 1 (Read (buf 1))] =
    (h, [ORet (RBody 1 None); ORet (RWriteTo n (Some err)); ORet (RInt rem); ORet (RRead 0 (buf 1) (Some EOF))]).
Proof. exact @SeekProofs.short_write_loses. Qed.
Print Assumptions C20_refuted.

Example C20_example :
  let E := scribe 3 in
  exists h b, history E 0 (initial []) [NewBytes (bs "hello world"); Call 1 (Read (buf 6))] =
    (h, [ORet (RBody 1 None); ORet (RRead 6 (bs "hello ") None)]) /\
  h_b h !! 1%nat = Some (BBytes b) /\ by_closed b = false /\ by_eof b = false /\
  (exec E 0 h (Call 1 (WriteTo 0))).2 = ORet (RWriteTo 3 (Some (External 7))) /\
  h_log (exec E 0 h (Call 1 (WriteTo 0))).1 = [EvWrite 0 (bs "world") (inl (3, Some (External 7)))].
Proof. eexists _, _. split; [vm_compute; reflexivity|]. repeat split; vm_compute; reflexivity. Qed.
