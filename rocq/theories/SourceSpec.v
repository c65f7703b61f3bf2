(** * Readers over a fixed byte string that can be read at any place

    What is assumed of them, in terms of their answers only. *)
From stdpp Require Import gmap.
From Verif Require Export StreamSpec.

(** The answer [n, err] of a read at [off] into a buffer as long as [p], which
    contains [q] afterwards: as many bytes of [d] as fit, and EOF if there are
    fewer.  [early]: EOF may also come along with exactly the last bytes. *)
Definition good_read (d : bytes) (early : bool) (off : nat) (p : bytes) (n : Z) (q : bytes) (err : option error) : Prop :=
  exists k, n = Z.of_nat k /\ read_at d early off p k err /\ take k q = take k (drop off d).

(** As long as [r] is not closed, [live] holds, whatever happens to other Readers
    and Writers. *)
Record until_closed {W} (E : env W) (r : rid) (live : W -> Prop) : Prop := {
  uc_read : forall w r' p, live w -> live (fst (ev_read E w r' p));
  uc_readat : forall w r' p off, live w -> live (fst (ev_readat E w r' p off));
  uc_seek : forall w r' off wh, live w -> live (fst (ev_seek E w r' off wh));
  uc_stat : forall w r', live w -> live (fst (ev_stat E w r'));
  uc_write : forall w x p, live w -> live (fst (ev_write E w x p));
  uc_close : forall w r', r' <> r -> live w -> live (fst (ev_close E w r'))
}.

(** ReadAt serves [d]. *)
Definition serves_at {W} (E : env W) (r : rid) (live : W -> Prop) (d : bytes) (early : bool) : Prop :=
  until_closed E r live /\
  forall w p off w' n q err, live w -> 0 <= off < zlen d -> ev_readat E w r p off = (w', (n, q, err)) ->
    good_read d early (Z.to_nat off) p n q err.

(** Seek to [off] succeeds, and a Read just after it serves [d] from there. *)
Definition serves_seek {W} (E : env W) (r : rid) (live : W -> Prop) (d : bytes) (early : bool) : Prop :=
  until_closed E r live /\
  forall w off, live w -> 0 <= off < zlen d ->
    exists w1 n1, ev_seek E w r off SeekStart = (w1, (n1, None)) /\
    forall p w' n q err, ev_read E w1 r p = (w', (n, q, err)) -> good_read d early (Z.to_nat off) p n q err.

(** The weaker rule most Readers follow: some of the bytes, at least one if there
    are any, and EOF only at the end. *)
Definition fair_read (d : bytes) (off : nat) (p : bytes) (n : Z) (q : bytes) (err : option error) : Prop :=
  exists k, n = Z.of_nat k /\ (k <= length p /\ k <= length d - off)%nat /\ take k q = take k (drop off d) /\
    (err = None \/ err = Some EOF /\ (off + k = length d)%nat) /\
    (k = 0%nat -> p <> [] -> err = Some EOF).
Definition fair_seek {W} (E : env W) (r : rid) (live : W -> Prop) (d : bytes) : Prop :=
  until_closed E r live /\
  forall w off, live w -> 0 <= off <= zlen d ->
    exists w1 n1, ev_seek E w r off SeekStart = (w1, (n1, None)) /\
    forall p w' n q err, ev_read E w1 r p = (w', (n, q, err)) -> fair_read d (Z.to_nat off) p n q err.

(** The new Body announces [D] bytes. *)
Definition announces {W} (E : env W) (fuel : nat) (h1 : heap W) (i : nat) (D : Z) : Prop :=
  exec E fuel h1 (Call i BytesRemaining) = (h1, ORet (RInt D)).

(** The family of the first [D] bytes of [d]. *)
Definition first_bytes (r : rid) (early : bool) (D : Z) (d : bytes) : family :=
  {| fam_flavour := FReader r early; fam_data := take (Z.to_nat D) d |}.
