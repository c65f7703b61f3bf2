(** * Specification of a Body family

    The ideal behaviour of a Body together with all its copies: independent
    cursors over one immutable byte string.  This file mentions no heap, no
    lock, no shared object and no Reader state. *)
From stdpp Require Import gmap.
From Verif Require Export BodyModel.

(** The state of one handle: closed, or open at a position, with a flag saying
    that the end has been reported by Read (cleared by Seek). *)
Inductive cursor := Shut | At (pos : nat) (ended : bool).

Inductive flavour :=
| FEmpty                              (* Empty(), FromBytes of nothing *)
| FBytes                              (* FromBytes, FromString *)
| FReader (r : rid) (early : bool).   (* seekable Reader; [early]: it may report EOF along with the last bytes *)

Record family := { fam_flavour : flavour; fam_data : bytes }.

(** Reading into [p] at [pos]: [k] bytes are delivered, [err] is reported. *)
Definition read_at (d : bytes) (early : bool) (pos : nat) (p : bytes) (k : nat) (err : option error) : Prop :=
  let avail := (length d - pos)%nat in
  k = (length p `min` avail)%nat /\
  ((length p < avail)%nat -> err = None) /\
  ((avail < length p)%nat -> err = Some EOF) /\
  (length p = avail -> err = None \/ (early = true /\ (0 < avail)%nat /\ err = Some EOF)).

(** The buffer after [k] bytes of [d] from [pos] have been put at its front. *)
Definition filled (d : bytes) (pos k : nat) (p : bytes) : bytes :=
  take k (drop pos d) ++ drop k p.

(** Seek: new position, or an error.  The third case is the int64 overflow of
    base + offset, which the code reports as a negative position. *)
Definition seek_to (len pos off whence : Z) : Z * option error :=
  if (whence =? 0) && (off <? 0) then (-1, Some (NegativeStartOffset off))
  else if (whence <? 0) || (2 <? whence) then (-1, Some (UnknownWhence whence))
  else
    let target := (if whence =? 1 then pos else if whence =? 2 then len else 0) + off in
    if max_i64 <? target then (-1, Some (NegativeComputedOffset (target - 2 ^ 64)))
    else if target <? 0 then (-1, Some (NegativeComputedOffset target))
    else (Z.min target len, None).

Definition is_early (f : flavour) : bool := match f with FReader _ e => e | _ => false end.
Definition is_empty_flavour (f : flavour) : bool := match f with FEmpty => true | _ => false end.
Definition reader_of (f : flavour) : option rid := match f with FReader r _ => Some r | _ => None end.

(** One call on one handle. *)
Definition ideal (F : family) (st : cursor) (f : op) (st' : cursor) (x : res) : Prop :=
  let d := fam_data F in
  let len := Z.of_nat (length d) in
  match st with
  | Shut =>
      st' = Shut /\
      match f with
      | BytesRemaining => x = RInt 0
      | Read p => x = RRead 0 p (Some ErrClosed)
      | Close => x = RErr (Some ErrClosed)
      | Seek _ _ => x = RSeek (-1) (Some ErrClosed)
      | ReadAt p _ => x = RRead 0 p (Some ErrClosed)
      | WriteTo _ => match fam_flavour F with FReader _ _ => x = RNoMethod | _ => x = RWriteTo 0 (Some ErrClosed) end
      | Copy => x = RBody closedSingleton None
      | Unwrap => x = RReader None
      end
  | At pos ended =>
      match f with
      | BytesRemaining => st' = st /\ x = RInt (len - Z.of_nat pos)
      | Read p =>
          if ended then st' = st /\ x = RRead 0 p (Some EOF)
          else exists k err, read_at d (is_early (fam_flavour F)) pos p k err /\
                 x = RRead (Z.of_nat k) (filled d pos k p) err /\
                 st' = At (pos + k) (match err with Some _ => true | None => false end)
      | Close => st' = Shut /\ exists err, x = RErr err /\ (reader_of (fam_flavour F) = None -> err = None)
      | Seek off whence =>
          let '(n, err) := seek_to len (Z.of_nat pos) off whence in
          x = RSeek n err /\
          st' = match err with None => At (Z.to_nat n) false | Some _ => st end
      | ReadAt p off =>
          st' = st /\
          if (off <? 0) && negb (is_empty_flavour (fam_flavour F))
          then x = RRead 0 p (Some (ReadAtNegative off))
          else let q := Z.to_nat (Z.min off len) in
               exists k err, read_at d (is_early (fam_flavour F)) q p k err /\
                 x = RRead (Z.of_nat k) (filled d q k p) err
      | WriteTo _ =>
          match fam_flavour F with
          | FEmpty => st' = st /\ x = RWriteTo 0 (Some EOF)
          | FBytes =>
              if ended then st' = st /\ x = RWriteTo 0 None
              else exists n err, (n <= length d - pos)%nat /\ x = RWriteTo (Z.of_nat n) err /\
                     st' = At (pos + n) true
          | FReader _ _ => st' = st /\ x = RNoMethod
          end
      | Copy => st' = st /\ exists j, x = RBody j None
      | Unwrap => st' = st /\ x = RReader (reader_of (fam_flavour F))
      end
  end.

(** The handles of a family.  A call on a handle changes this handle only;
    Copy of an open handle adds a new one in the same state. *)
Notation table := (gmap nat cursor).

Definition fam_step (F : family) (t : table) (i : nat) (f : op) (t' : table) (x : res) : Prop :=
  exists st st', t !! i = Some st /\ ideal F st f st' x /\
    match st, f, x with
    | At _ _, Copy, RBody j _ => t !! j = None /\ t' = <[j := st]> t
    | _, _, _ => t' = <[i := st']> t
    end.

(** The observations [os] made by the program [cs] are those of the ideal
    family [t] of handles, as far as calls on handles of the family are
    concerned.  A panic can only come out of a Writer given to WriteTo. *)
Fixpoint fam_trace (F : family) (t : table) (cs : list cmd) (os : list (out res)) : Prop :=
  match cs, os with
  | Call i f :: cs, o :: os =>
      match t !! i with
      | Some _ =>
          match o with
          | ORet x => exists t', fam_step F t i f t' x /\ fam_trace F t' cs os
          | OPanic _ => (exists w, f = WriteTo w) /\ fam_trace F t cs os
          | OSpin => False
          end
      | None => fam_trace F t cs os
      end
  | _ :: cs, _ :: os => fam_trace F t cs os
  | _, _ => True
  end.

(** The family of a Body holding the bytes [d] in memory. *)
Definition mem_family (d : bytes) : family :=
  {| fam_flavour := match d with [] => FEmpty | _ => FBytes end; fam_data := d |}.

(** ** Well-typed arguments and feasible executions

    The model's integers are unbounded; Go's are not.  A call is well typed if
    its int64 arguments are int64 and its slices are no longer than any Go slice
    can be ([max_slice] is far above the runtime's limit of 2^48 bytes). *)
Definition max_slice : Z := 2 ^ 61.
Definition go_op (f : op) : Prop :=
  match f with
  | Seek off whence => in_i64 off /\ in_i64 whence
  | Read p => zlen p <= max_slice
  | ReadAt p off => zlen p <= max_slice /\ in_i64 off
  | _ => True
  end.
Definition go_cmd (c : cmd) : Prop :=
  match c with
  | Call _ f => go_op f
  | NewBytes d => zlen d <= max_slice
  | NewString s => Z.of_nat (String.length s) <= max_slice
  | NewReaderLen _ len => in_i64 len
  | _ => True
  end.
(** Stat and Seek report int64 values. *)
Definition go_env {W} (E : env W) : Prop :=
  (forall w r, in_i64 (fst (snd (ev_stat E w r)))) /\
  (forall w r off wh, in_i64 (fst (snd (ev_seek E w r off wh)))).

(** The number of bytes Readers have delivered through Read so far. *)
Definition ev_bytes (ev : event) : Z :=
  match ev with EvRead _ len n _ _ => if (0 <=? n) && (n <=? len) then n else 0 | _ => 0 end.
Definition total_read (log : list event) : Z := foldr Z.add 0 (map ev_bytes log).

(** An execution is feasible as long as fewer than 2^31 Bodies have been made
    (the reference counts are int32, see C48) and Readers have delivered no more
    than 2^62 bytes in total (4 EiB). *)
Definition feasible {W} (h : heap W) : Prop :=
  zlen (h_b h) < 2 ^ 31 /\ total_read (h_log h) <= 2 ^ 62.

(** The heaps programs can reach: any history of well-typed commands. *)
Definition reaches {W} (E : env W) (fuel : nat) (h : heap W) : Prop :=
  exists w cs os, Forall go_cmd cs /\ history E fuel (initial w) cs = (h, os) /\ feasible h.

(** ** Handles of one family, as the program sees them

    [true]: open, [false]: closed.  A family starts with the Body a constructor
    returned; Copy of an open handle adds a handle; Close closes one. *)
Notation handles := (gmap nat bool).
Definition track (t : handles) (c : cmd) (o : out res) : handles :=
  match c, o with
  | Call i Copy, ORet (RBody j None) => match t !! i with Some true => <[j := true]> t | _ => t end
  | Call i Close, ORet (RErr _) => match t !! i with Some true => <[i := false]> t | _ => t end
  | _, _ => t
  end.
Fixpoint tracks (t : handles) (cs : list cmd) (os : list (out res)) : handles :=
  match cs, os with
  | c :: cs, o :: os => tracks (track t c o) cs os
  | _, _ => t
  end.
Definition all_closed (t : handles) : Prop := forall i, t !! i <> Some true.

(** The command passes the Reader [r] to a constructor. *)
Definition wraps (r : rid) (c : cmd) : Prop := c = NewReader r \/ exists n, c = NewReaderLen r n.

(** The calls made on the Reader [r]. *)
Definition ev_reader (ev : event) : option rid :=
  match ev with
  | EvRead r _ _ _ _ | EvReadAt r _ _ _ _ | EvSeek r _ _ _ _ | EvClose r _ | EvStat r _ _ => Some r
  | EvWrite _ _ _ => None
  end.
Definition calls_on (r : rid) (log : list event) : list event := filter (fun ev => ev_reader ev = Some r) log.
Definition not_close (ev : event) : Prop := match ev with EvClose _ _ => False | _ => True end.

(** What a closed Body answers.  [has_method]: the dynamic type has it. *)
Definition has_method (b : bobj) (f : op) : bool :=
  match b, f with
  | (BSeeker _ | BReaderAt _), WriteTo _ => false
  | BBuffered _, (WriteTo _ | Seek _ _ | ReadAt _ _) => false
  | _, _ => true
  end.
Definition closed_answer (f : op) : res :=
  match f with
  | BytesRemaining => RInt 0
  | Read p => RRead 0 p (Some ErrClosed)
  | Close => RErr (Some ErrClosed)
  | Seek _ _ => RSeek (-1) (Some ErrClosed)
  | ReadAt p _ => RRead 0 p (Some ErrClosed)
  | WriteTo _ => RWriteTo 0 (Some ErrClosed)
  | Copy => RBody closedSingleton None
  | Unwrap => RReader None
  end.

(** The byte stream Readers have delivered through Read, and the first error. *)
Definition ev_data (ev : event) : bytes :=
  match ev with EvRead _ len n got _ => if (0 <=? n) && (n <=? len) then got else [] | _ => [] end.
Definition stream (log : list event) : bytes := concat (map ev_data log).

(** How a constructor finds the length: the calls it makes on the Reader, and
    what comes of them.  [-1]: not known. *)
Inductive probe_end := Found (len : Z) | Failed (e : error) | NegativeSize.
Definition probe (r : rid) (cp : caps) (len : Z) (evs : list event) (x : probe_end) : Prop :=
  if 0 <=? len then evs = [] /\ x = Found len
  else if cp_file cp then
    exists n err, evs = [EvStat r n err] /\
      x = match err with Some e => Failed (StatFailed e) | None => if 0 <=? n then Found n else NegativeSize end
  else if cp_seeker cp then
    exists n err rest, evs = EvSeek r 0 SeekEnd n err :: rest /\
      match err with
      | Some e => rest = [] /\ x = Failed (SeekEndFailed e)
      | None =>
          if 0 <=? n then
            exists n2 err2, rest = [EvSeek r 0 SeekStart n2 err2] /\
              x = match err2 with Some e => Failed (SeekStartFailed e) | None => Found n end
          else rest = [] /\ x = NegativeSize
      end
  else evs = [] /\ x = Found (-1).
(** The kind of Body made for a Reader with capabilities [cp] and length [len]. *)
Definition seekable_kind (b : bobj) : bool := match b with BSeeker _ | BReaderAt _ => true | _ => false end.

(** ** Counting what is lent to a Reader, and who obeys the rules *)

(** The length of the longest buffer lent to a Reader. *)
Definition ev_lent (ev : event) : Z := match ev with EvRead _ len _ _ _ | EvReadAt _ len _ _ _ => len | _ => 0 end.
Definition handed (log : list event) : Z := foldr Z.max 0 (map ev_lent log).

(** Readers and Writers that obey the rules of their interfaces as far as counts
    are concerned: 0 <= n <= len(p), no negative sizes, no panics. *)
Definition rd_count (x : Z * bytes * option error) : Z := fst (fst x).
Definition rule_abiding {W} (E : env W) : Prop :=
  go_env E /\
  (forall w r p, 0 <= rd_count (snd (ev_read E w r p)) <= zlen p) /\
  (forall w r p off, 0 <= rd_count (snd (ev_readat E w r p off)) <= zlen p) /\
  (forall w r n, snd (ev_stat E w r) = (n, None) -> 0 <= n) /\
  (forall w r off wh n, snd (ev_seek E w r off wh) = (n, None) -> 0 <= n) /\
  (forall w x p, exists n err, snd (ev_write E w x p) = inl (n, err) /\ 0 <= n <= zlen p).

(** The command uses no handle that does not exist. *)
Definition known {W} (h : heap W) (c : cmd) : Prop :=
  match c with Call i _ | NewReaderBody i => (i < length (h_b h))%nat | _ => True end.

(** Every Read of a non-empty buffer returns something or an error. *)
Definition progressing {W} (E : env W) : Prop :=
  forall w r p, p <> [] -> rd_count (snd (ev_read E w r p)) <> 0 \/ snd (snd (ev_read E w r p)) <> None.
(** Read never returns anything, not even an error. *)
Definition silent {W} (E : env W) : Prop :=
  forall w r p, rd_count (snd (ev_read E w r p)) = 0 /\ snd (snd (ev_read E w r p)) = None.

(** What a call reading into [p] may do to it: it reports at most [length p]
    bytes.  Bodies that lend [p] to the Reader (Seeker and ReaderAt) change
    nothing beyond what they lend; the others change nothing beyond what they
    report.  [evs]: the calls made on the Reader meanwhile. *)
Definition buffer_ok (b : bobj) (p : bytes) (evs : list event) (n : Z) (p' : bytes) : Prop :=
  0 <= n <= zlen p /\ length p' = length p /\
  if seekable_kind b then n <= handed evs <= zlen p /\ drop (Z.to_nat (handed evs)) p' = drop (Z.to_nat (handed evs)) p
  else drop (Z.to_nat n) p' = drop (Z.to_nat n) p.

(** The call is neither a Close of the handle [i] nor a successful Seek on it. *)
Definition undisturbing (i : nat) (co : cmd * out res) : Prop :=
  match co with
  | (Call j Close, _) => j <> i
  | (Call j (Seek _ _), ORet (RSeek _ None)) => j <> i
  | _ => True
  end.
