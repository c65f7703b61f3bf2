(** * Readers that fail, or have fewer bytes than announced

    The handles of a family over a Reader that can be read at any place share one
    number: the length [L] they believe in.  It starts as the length announced, and
    a Read that ends with an error lowers it to where that Read ended.  Otherwise the
    handles are independent cursors. *)
From stdpp Require Import gmap.
From Verif Require Export SourceSpec.

(** A handle: closed, or at a position, with the error its last Read reported
    (cleared by Seek). *)
Inductive hand := Gone | Pos (pos : nat) (err : option error).

(** A read into [p] at [pos], by a family that believes in [L] bytes, gives the
    first [k] of [q] and reports [err].  What it gives is part of [d].  It asks for
    no more than [L] has, and leaves the rest of [p] alone; if that is not enough
    for [p] it reports an error, and if that is nothing then it does not ask. *)
Definition served (d : bytes) (L pos : nat) (p : bytes) (k : nat) (q : bytes) (err : option error) : Prop :=
  let ask := (length p `min` (L - pos))%nat in
  (k <= ask)%nat /\ take k q = take k (drop pos d) /\
  length q = length p /\ drop ask q = drop ask p /\
  ((ask < length p)%nat -> err <> None) /\
  ((L <= pos)%nat -> err = if (length p =? 0)%nat then None else Some EOF).

(** Moreover it gives as many bytes as [p] takes and [d] has, and EOF at the end of
    [d] only.  (An empty [p] at the end: some Readers report EOF, some do not.) *)
Definition served_all (d : bytes) (early : bool) (L pos : nat) (p : bytes) (k : nat) (q : bytes) (err : option error) : Prop :=
  served d L pos p k q err /\
  if (pos <? length d)%nat then read_at d early pos p k err else k = 0%nat /\ (err = Some EOF \/ err = None /\ p = []).

Section Shrink.
Context (R : nat -> nat -> bytes -> nat -> bytes -> option error -> Prop) (r : rid).

(** One call on one handle; [L] before, [L'] afterwards. *)
Definition hand_step (L : nat) (st : hand) (f : op) (L' : nat) (st' : hand) (x : res) : Prop :=
  match st with
  | Gone => L' = L /\ st' = Gone /\ x = match f with WriteTo _ => RNoMethod | _ => closed_answer f end
  | Pos pos e =>
      match f with
      | BytesRemaining =>
          L' = L /\ st' = st /\ exists z, x = RInt z /\ ((pos <= L)%nat -> z = Z.of_nat L - Z.of_nat pos) /\ ((L <= pos)%nat -> z = 0 \/ z = Z.of_nat L - Z.of_nat pos)
      | Read p =>
          match e with
          | Some e => L' = L /\ st' = st /\ x = RRead 0 p (Some e)
          | None =>
              let at_ := (pos `min` L)%nat in
              exists k q err, R L at_ p k q err /\ x = RRead (Z.of_nat k) q err /\ st' = Pos (at_ + k) err /\
                L' = match err with Some _ => (L `min` (at_ + k))%nat | None => L end
          end
      | ReadAt p off =>
          L' = L /\ st' = st /\
          if off <? 0 then x = RRead 0 p (Some (ReadAtNegative off))
          else exists k q err, R L (Z.to_nat off `min` L)%nat p k q err /\ x = RRead (Z.of_nat k) q err
      | Seek off whence =>
          let '(n, err) := seek_to (Z.of_nat L) (Z.of_nat pos) off whence in
          L' = L /\ x = RSeek n err /\ st' = match err with None => Pos (Z.to_nat n) None | Some _ => st end
      | Close => L' = L /\ st' = Gone /\ exists err, x = RErr err
      | WriteTo _ => L' = L /\ st' = st /\ x = RNoMethod
      | Copy => L' = L /\ st' = st /\ exists j, x = RBody j None
      | Unwrap => L' = L /\ st' = st /\ x = RReader (Some r)
      end
  end.

Definition shrink_step (L : nat) (t : gmap nat hand) (i : nat) (f : op) (L' : nat) (t' : gmap nat hand) (x : res) : Prop :=
  exists st st', t !! i = Some st /\ hand_step L st f L' st' x /\
    match st, f, x with
    | Pos _ _, Copy, RBody j _ => t !! j = None /\ t' = <[j := st]> t
    | _, _, _ => t' = <[i := st']> t
    end.

(** All that is observed on handles of the family. *)
Fixpoint shrink_trace (L : nat) (t : gmap nat hand) (cs : list cmd) (os : list (out res)) : Prop :=
  match cs, os with
  | Call i f :: cs, o :: os =>
      match t !! i with
      | Some _ => exists x L' t', o = ORet x /\ shrink_step L t i f L' t' x /\ shrink_trace L' t' cs os
      | None => shrink_trace L t cs os
      end
  | _ :: cs, _ :: os => shrink_trace L t cs os
  | _, _ => True
  end.
End Shrink.

(** The Reader tells no lies: the bytes it gives are those of [d] at that place.  It
    can give fewer than asked for, and report any error at any time. *)
Definition true_read (d : bytes) (off : nat) (p : bytes) (n : Z) (q : bytes) : Prop :=
  exists k, n = Z.of_nat k /\ (k <= length p /\ k <= length d - off)%nat /\ take k q = take k (drop off d).
Definition truthful_at {W} (E : env W) (r : rid) (live : W -> Prop) (d : bytes) : Prop :=
  until_closed E r live /\
  forall w p off w' n q err, live w -> 0 <= off <= max_i64 -> ev_readat E w r p off = (w', (n, q, err)) -> true_read d (Z.to_nat off) p n q.
Definition truthful_seek {W} (E : env W) (r : rid) (live : W -> Prop) (d : bytes) : Prop :=
  until_closed E r live /\
  forall w off w1 n1, live w -> 0 <= off <= max_i64 -> ev_seek E w r off SeekStart = (w1, (n1, None)) ->
    forall p w' n q err, ev_read E w1 r p = (w', (n, q, err)) -> true_read d (Z.to_nat off) p n q.

(** Beyond its end the Reader gives nothing and EOF.  Files, bytes.Reader,
    strings.Reader and Bodies do this. *)
Definition past_end (p : bytes) (n : Z) (err : option error) : Prop := n = 0 /\ (err = Some EOF \/ err = None /\ p = []).
Definition ends_at {W} (E : env W) (r : rid) (live : W -> Prop) (d : bytes) (early : bool) : Prop :=
  serves_at E r live d early /\
  forall w p off w' n q err, live w -> zlen d <= off <= max_i64 -> ev_readat E w r p off = (w', (n, q, err)) -> past_end p n err.
Definition ends_seek {W} (E : env W) (r : rid) (live : W -> Prop) (d : bytes) (early : bool) : Prop :=
  serves_seek E r live d early /\
  forall w off, live w -> zlen d <= off <= max_i64 ->
    exists w1 n1, ev_seek E w r off SeekStart = (w1, (n1, None)) /\
    forall p w' n q err, ev_read E w1 r p = (w', (n, q, err)) -> past_end p n err.
