(** * package body, function by function *)
From Verif Require Export Lang.

(** Results of the Body methods. [Read]/[ReadAt] also give the final contents
    of the caller's buffer. *)
Definition rdres : Type := Z * bytes * option error.

Definition ldEmpty (i : nat) : prog emptyBody :=
  b <- perform (LoadB i) ;; match b with BEmpty x => Ret x | _ => Panic PNil end.
Definition ldBytes (i : nat) : prog bytesBody :=
  b <- perform (LoadB i) ;; match b with BBytes x => Ret x | _ => Panic PNil end.
Definition ldSeeker (i : nat) : prog seekerBody :=
  b <- perform (LoadB i) ;; match b with BSeeker x => Ret x | _ => Panic PNil end.
Definition ldReaderAt (i : nat) : prog readerAtBody :=
  b <- perform (LoadB i) ;; match b with BReaderAt x => Ret x | _ => Panic PNil end.
Definition ldBuffered (i : nat) : prog bufferedBody :=
  b <- perform (LoadB i) ;; match b with BBuffered x => Ret x | _ => Panic PNil end.
Definition ldSeekerC (c : nat) : prog seekerCommon :=
  x <- perform (LoadC c) ;; match x with CSeeker y => Ret y | _ => Panic PNil end.
Definition ldReaderAtC (c : nat) : prog readerAtCommon :=
  x <- perform (LoadC c) ;; match x with CReaderAt y => Ret y | _ => Panic PNil end.
Definition ldBufferedC (c : nat) : prog bufferedCommon :=
  x <- perform (LoadC c) ;; match x with CBuffered y => Ret y | _ => Panic PNil end.

(** closed.go:8 — the package variable; object 0 of every heap. *)
Definition closedSingleton : nat := 0%nat.

(** ** closed.go — all methods have a nil receiver and no state *)

(** closed.go:12-14 *)
Definition closed_BytesRemaining : prog Z := Ret 0.
(** closed.go:16-18 *)
Definition closed_Read (p : bytes) : prog rdres := Ret (0, p, Some ErrClosed).
(** closed.go:20-22 *)
Definition closed_Close : prog (option error) := Ret (Some ErrClosed).
(** closed.go:24-26 *)
Definition closed_Seek (offset whence : Z) : prog (Z * option error) := Ret (-1, Some ErrClosed).
(** closed.go:28-30 *)
Definition closed_ReadAt (p : bytes) (offset : Z) : prog rdres := Ret (0, p, Some ErrClosed).
(** closed.go:32-34 *)
Definition closed_WriteTo : prog (Z * option error) := Ret (0, Some ErrClosed).
(** closed.go:36-38 *)
Definition closed_Copy : prog (nat * option error) := Ret (closedSingleton, None).
(** closed.go:40-42 *)
Definition closed_Unwrap : prog (option rid) := Ret None.

(** ** empty.go *)

(** empty.go:15-17 *)
Definition empty_BytesRemaining (i : nat) : prog Z := Ret 0.

(** empty.go:19-33 *)
Definition empty_Read (i : nat) (p : bytes) : prog rdres :=
  locked (MuB i) (
    b <- ldEmpty i ;;
    if em_closed b then Ret (0, p, Some ErrClosed) else
    if em_eof b || (zlen p >? 0) then
      perform (StoreB i (BEmpty {| em_eof := true; em_closed := em_closed b |})) ;;;
      Ret (0, p, Some EOF)
    else Ret (0, p, None)).

(** empty.go:35-45 *)
Definition empty_Close (i : nat) : prog (option error) :=
  locked (MuB i) (
    b <- ldEmpty i ;;
    if em_closed b then Ret (Some ErrClosed) else
    perform (StoreB i (BEmpty {| em_eof := em_eof b; em_closed := true |})) ;;;
    Ret None).

(** empty.go:47-74 *)
Definition empty_Seek (i : nat) (offset whence : Z) : prog (Z * option error) :=
  locked (MuB i) (
    b <- ldEmpty i ;;
    if em_closed b then Ret (-1, Some ErrClosed) else
    if (whence =? SeekStart) && (offset <? 0) then Ret (-1, Some (NegativeStartOffset offset)) else
    if negb ((whence =? SeekStart) || (whence =? SeekCurrent) || (whence =? SeekEnd))
      then Ret (-1, Some (UnknownWhence whence)) else
    if offset <? 0 then Ret (-1, Some (NegativeComputedOffset offset)) else
    perform (StoreB i (BEmpty {| em_eof := false; em_closed := em_closed b |})) ;;;
    Ret (0, None)).

(** empty.go:76-89 *)
Definition empty_ReadAt (i : nat) (p : bytes) (offset : Z) : prog rdres :=
  locked (MuB i) (
    b <- ldEmpty i ;;
    if em_closed b then Ret (0, p, Some ErrClosed) else
    if zlen p >? 0 then Ret (0, p, Some EOF) else Ret (0, p, None)).

(** empty.go:91-100 *)
Definition empty_WriteTo (i : nat) : prog (Z * option error) :=
  locked (MuB i) (
    b <- ldEmpty i ;;
    if em_closed b then Ret (0, Some ErrClosed) else Ret (0, Some EOF)).

(** empty.go:102-112 *)
Definition empty_Copy (i : nat) : prog (nat * option error) :=
  locked (MuB i) (
    b <- ldEmpty i ;;
    if em_closed b then Ret (closedSingleton, None) else
    dupe <- perform (NewB (BEmpty {| em_eof := em_eof b; em_closed := false |})) ;;
    Ret (dupe, None)).

(** empty.go:114-116 *)
Definition empty_Unwrap (i : nat) : prog (option rid) := Ret None.

(** ** bytes.go *)

(** bytes.go:20-29 *)
Definition bytes_BytesRemaining (i : nat) : prog Z :=
  locked (MuB i) (
    b <- ldBytes i ;;
    if by_closed b then Ret 0 else Ret (zlen (by_data b) - by_offset b)).

(** bytes.go:31-59 *)
Definition bytes_Read (i : nat) (p : bytes) : prog rdres :=
  locked (MuB i) (
    b <- ldBytes i ;;
    if by_closed b then Ret (0, p, Some ErrClosed) else
    if by_eof b then Ret (0, p, Some EOF) else
    let avail := zlen (by_data b) - by_offset b in
    let n := if zlen p >? avail then avail else zlen p in
    let eof := zlen p >? avail in
    let err := if eof then Some EOF else None in
    let i' := by_offset b in
    let j := i' + n in
    src <- of_option PRange (slice (by_data b) i' j) ;;
    p' <- of_option PRange (copy_into p 0 n src) ;;
    perform (StoreB i (BBytes {| by_data := by_data b; by_offset := j; by_eof := eof;
                                 by_closed := by_closed b |})) ;;;
    Ret (n, p', err)).

(** bytes.go:61-74 *)
Definition bytes_Close (i : nat) : prog (option error) :=
  locked (MuB i) (
    b <- ldBytes i ;;
    if by_closed b then Ret (Some ErrClosed) else
    perform (StoreB i (BBytes {| by_data := []; by_offset := 0; by_eof := true; by_closed := true |})) ;;;
    Ret None).

(** bytes.go:76-110 *)
Definition bytes_Seek (i : nat) (offset whence : Z) : prog (Z * option error) :=
  locked (MuB i) (
    b <- ldBytes i ;;
    if by_closed b then Ret (-1, Some ErrClosed) else
    let bodyLen := zlen (by_data b) in
    if (whence =? SeekStart) && (offset <? 0) then Ret (-1, Some (NegativeStartOffset offset)) else
    if negb ((whence =? SeekStart) || (whence =? SeekCurrent) || (whence =? SeekEnd))
      then Ret (-1, Some (UnknownWhence whence)) else
    let offset := if whence =? SeekCurrent then wrap64 (offset + by_offset b)
                  else if whence =? SeekEnd then wrap64 (offset + bodyLen)
                  else offset in
    if offset <? 0 then Ret (-1, Some (NegativeComputedOffset offset)) else
    let offset := if offset >? bodyLen then bodyLen else offset in
    perform (StoreB i (BBytes {| by_data := by_data b; by_offset := offset; by_eof := false;
                                 by_closed := by_closed b |})) ;;;
    Ret (offset, None)).

(** bytes.go:112-142 *)
Definition bytes_ReadAt (i : nat) (p : bytes) (offset : Z) : prog rdres :=
  locked (MuB i) (
    b <- ldBytes i ;;
    if by_closed b then Ret (0, p, Some ErrClosed) else
    if offset <? 0 then Ret (0, p, Some (ReadAtNegative offset)) else
    let bodyLen := zlen (by_data b) in
    let offset := if offset >? bodyLen then bodyLen else offset in
    let avail := bodyLen - offset in
    let n := if zlen p >? avail then avail else zlen p in
    let err := if zlen p >? avail then Some EOF else None in
    let i' := offset in
    let j := i' + n in
    src <- of_option PRange (slice (by_data b) i' j) ;;
    p' <- of_option PRange (copy_into p 0 n src) ;;
    Ret (n, p', err)).

(** A Writer's Write method; it may panic. *)
Definition call_write (w : wid) (p : bytes) : prog (Z * option error) :=
  x <- perform (CallWrite w p) ;;
  match x with inl r => Ret r | inr e => Panic e end.

(** bytes.go:144-165 *)
Definition bytes_WriteTo (i : nat) (w : wid) : prog (Z * option error) :=
  locked (MuB i) (
    b <- ldBytes i ;;
    if by_closed b then Ret (0, Some ErrClosed) else
    if by_eof b then Ret (0, None) else
    let i' := by_offset b in
    let j := zlen (by_data b) in
    let avail := j - i' in
    src <- of_option PRange (slice (by_data b) i' j) ;;
    '(n, err) <- call_write w src ;;
    assert (n >=? 0) ;;;
    assert (n <=? avail) ;;;
    perform (StoreB i (BBytes {| by_data := by_data b; by_offset := by_offset b + n; by_eof := true;
                                 by_closed := by_closed b |})) ;;;
    Ret (n, err)).

(** bytes.go:167-182 *)
Definition bytes_Copy (i : nat) : prog (nat * option error) :=
  locked (MuB i) (
    b <- ldBytes i ;;
    if by_closed b then Ret (closedSingleton, None) else
    dupe <- perform (NewB (BBytes {| by_data := by_data b; by_offset := by_offset b;
                                     by_eof := by_eof b; by_closed := by_closed b |})) ;;
    Ret (dupe, None)).

(** bytes.go:184-186 *)
Definition bytes_Unwrap (i : nat) : prog (option rid) := Ret None.

(** ** seeker.go *)

(** seeker.go:19-24 *)
Definition seeker_ref (c : nat) : prog unit :=
  locked (MuC c) (
    x <- ldSeekerC c ;;
    perform (StoreC c (CSeeker {| sc_s := sc_s x; sc_length := sc_length x;
                                  sc_refcnt := wrap32 (sc_refcnt x + 1) |}))).

(** seeker.go:26-46.  A nil [common.s] is not an io.Closer. *)
Definition seeker_unref (c : nat) : prog (option error) :=
  locked (MuC c) (
    x <- ldSeekerC c ;;
    let refcnt := wrap32 (sc_refcnt x - 1) in
    perform (StoreC c (CSeeker {| sc_s := sc_s x; sc_length := sc_length x; sc_refcnt := refcnt |})) ;;;
    if refcnt >? 0 then Ret None else
    err <- match sc_s x with
           | Some r =>
               cp <- perform (Caps r) ;;
               if is_closer cp then perform (CallClose r) else Ret None
           | None => Ret None
           end ;;
    perform (StoreC c (CSeeker {| sc_s := None; sc_length := 0; sc_refcnt := 0 |})) ;;;
    Ret err).

(** seeker.go:48-53 *)
Definition seekerCommon_BytesRemaining (c : nat) : prog Z :=
  locked (MuC c) (x <- ldSeekerC c ;; Ret (sc_length x)).

(** seeker.go:55-66; the caller holds [common.mu]. *)
Definition seeker_readAt (x : seekerCommon) (p : bytes) (offset : Z) : prog rdres :=
  r <- of_option PNil (sc_s x) ;;
  '(_, err) <- perform (CallSeek r offset SeekStart) ;;
  match err with
  | Some e => Ret (0, p, Some e)
  | None =>
      '(n, p', err) <- perform (CallRead r p) ;;
      assert (n >=? 0) ;;;
      assert (n <=? zlen p) ;;;
      Ret (n, p', err)
  end.

(** seeker.go:76-85.  Note: [body.common.length] is read without [common.mu]. *)
Definition seeker_BytesRemaining (i : nat) : prog Z :=
  locked (MuB i) (
    b <- ldSeeker i ;;
    if sb_closed b then Ret 0 else
    c <- of_option PNil (sb_common b) ;;
    x <- ldSeekerC c ;;
    Ret (sc_length x - sb_offset b)).

(** seeker.go:87-141.  [p[0:x]] aliases [p]: the bytes beyond [x] stay. *)
Definition seeker_Read (i : nat) (p : bytes) : prog rdres :=
  locked (MuB i) (
    b <- ldSeeker i ;;
    if sb_closed b then Ret (0, p, Some ErrClosed) else
    match sb_err b with
    | Some e => Ret (0, p, Some e)
    | None =>
      c <- of_option PNil (sb_common b) ;;
      locked (MuC c) (
        cm <- ldSeekerC c ;;
        let length := sc_length cm in
        let offset := if sb_offset b >? length then length else sb_offset b in
        let avail := length - offset in
        let eof := zlen p >? avail in
        let x := if eof then avail else zlen p in
        '(n, p', err) <-
          (if avail >? 0 then
             px <- of_option PRange (slice p 0 x) ;;
             '(n, px', err) <- seeker_readAt cm px offset ;;
             Ret (n, px' ++ drop (Z.to_nat x) p, err)
           else Ret (0, p, None)) ;;
        let err := match err with None => if eof then Some EOF else None | Some e => Some e end in
        let offset := offset + n in
        perform (StoreB i (BSeeker {| sb_common := sb_common b;
                                      sb_err := match err with None => sb_err b | Some e => Some e end;
                                      sb_offset := offset; sb_closed := sb_closed b |})) ;;;
        match err with
        | Some _ =>
            if offset <? sc_length cm
            then perform (StoreC c (CSeeker {| sc_s := sc_s cm; sc_length := offset; sc_refcnt := sc_refcnt cm |}))
            else Ret tt
        | None => Ret tt
        end ;;;
        Ret (n, p', err))
    end).

(** seeker.go:143-157 *)
Definition seeker_Close (i : nat) : prog (option error) :=
  locked (MuB i) (
    b <- ldSeeker i ;;
    if sb_closed b then Ret (Some ErrClosed) else
    perform (StoreB i (BSeeker {| sb_common := None; sb_err := None; sb_offset := 0; sb_closed := true |})) ;;;
    c <- of_option PNil (sb_common b) ;;
    seeker_unref c).

(** seeker.go:159-194 *)
Definition seeker_Seek (i : nat) (offset whence : Z) : prog (Z * option error) :=
  locked (MuB i) (
    b <- ldSeeker i ;;
    if sb_closed b then Ret (-1, Some ErrClosed) else
    c <- of_option PNil (sb_common b) ;;
    length <- seekerCommon_BytesRemaining c ;;
    if (whence =? SeekStart) && (offset <? 0) then Ret (-1, Some (NegativeStartOffset offset)) else
    if negb ((whence =? SeekStart) || (whence =? SeekCurrent) || (whence =? SeekEnd))
      then Ret (-1, Some (UnknownWhence whence)) else
    let offset := if whence =? SeekCurrent then wrap64 (offset + sb_offset b)
                  else if whence =? SeekEnd then wrap64 (offset + length)
                  else offset in
    if offset <? 0 then Ret (-1, Some (NegativeComputedOffset offset)) else
    let offset := if offset >? length then length else offset in
    perform (StoreB i (BSeeker {| sb_common := sb_common b; sb_err := None; sb_offset := offset;
                                  sb_closed := sb_closed b |})) ;;;
    Ret (offset, None)).

(** seeker.go:196-237 *)
Definition seeker_ReadAt (i : nat) (p : bytes) (offset : Z) : prog rdres :=
  locked (MuB i) (
    b <- ldSeeker i ;;
    if sb_closed b then Ret (0, p, Some ErrClosed) else
    if offset <? 0 then Ret (0, p, Some (ReadAtNegative offset)) else
    c <- of_option PNil (sb_common b) ;;
    locked (MuC c) (
      cm <- ldSeekerC c ;;
      let length := sc_length cm in
      let offset := if offset >? length then length else offset in
      let avail := length - offset in
      let eof := zlen p >? avail in
      let x := if eof then avail else zlen p in
      '(n, p', err) <-
        (if avail >? 0 then
           px <- of_option PRange (slice p 0 x) ;;
           '(n, px', err) <- seeker_readAt cm px offset ;;
           Ret (n, px' ++ drop (Z.to_nat x) p, err)
         else Ret (0, p, None)) ;;
      let err := match err with None => if eof then Some EOF else None | Some e => Some e end in
      Ret (n, p', err))).

(** seeker.go:239-255 *)
Definition seeker_Copy (i : nat) : prog (nat * option error) :=
  locked (MuB i) (
    b <- ldSeeker i ;;
    if sb_closed b then Ret (closedSingleton, None) else
    dupe <- perform (NewB (BSeeker {| sb_common := sb_common b; sb_err := sb_err b;
                                      sb_offset := sb_offset b; sb_closed := sb_closed b |})) ;;
    c <- of_option PNil (sb_common b) ;;
    seeker_ref c ;;;
    Ret (dupe, None)).

(** seeker.go:257-268 *)
Definition seeker_Unwrap (i : nat) : prog (option rid) :=
  locked (MuB i) (
    b <- ldSeeker i ;;
    if sb_closed b then Ret None else
    c <- of_option PNil (sb_common b) ;;
    locked (MuC c) (x <- ldSeekerC c ;; Ret (sc_s x))).

(** ** readerat.go *)

(** readerat.go:20-24 *)
Definition readerAt_ref (c : nat) : prog unit :=
  locked (MuC c) (
    x <- ldReaderAtC c ;;
    perform (StoreC c (CReaderAt {| rc_r := rc_r x; rc_at := rc_at x; rc_length := rc_length x;
                                    rc_refcnt := wrap32 (rc_refcnt x + 1) |}))).

(** readerat.go:26-47 *)
Definition readerAt_unref (c : nat) : prog (option error) :=
  locked (MuC c) (
    x <- ldReaderAtC c ;;
    let refcnt := wrap32 (rc_refcnt x - 1) in
    perform (StoreC c (CReaderAt {| rc_r := rc_r x; rc_at := rc_at x; rc_length := rc_length x;
                                    rc_refcnt := refcnt |})) ;;;
    if refcnt >? 0 then Ret None else
    err <- match rc_r x with
           | Some r =>
               cp <- perform (Caps r) ;;
               if is_closer cp then perform (CallClose r) else Ret None
           | None => Ret None
           end ;;
    perform (StoreC c (CReaderAt {| rc_r := None; rc_at := None; rc_length := 0; rc_refcnt := 0 |})) ;;;
    Ret err).

(** readerat.go:49-54 *)
Definition readerAtCommon_BytesRemaining (c : nat) : prog Z :=
  locked (MuC c) (x <- ldReaderAtC c ;; Ret (rc_length x)).

(** readerat.go:56-62; the caller holds [common.mu]. *)
Definition readerAt_readAt (x : readerAtCommon) (p : bytes) (offset : Z) : prog rdres :=
  r <- of_option PNil (rc_at x) ;;
  '(n, p', err) <- perform (CallReadAt r p offset) ;;
  assert (n >=? 0) ;;;
  assert (n <=? zlen p) ;;;
  Ret (n, p', err).

(** readerat.go:72-86 *)
Definition readerAt_BytesRemaining (i : nat) : prog Z :=
  locked (MuB i) (
    b <- ldReaderAt i ;;
    if rb_closed b then Ret 0 else
    c <- of_option PNil (rb_common b) ;;
    length <- readerAtCommon_BytesRemaining c ;;
    if rb_offset b >=? length then Ret 0 else Ret (length - rb_offset b)).

(** readerat.go:88-141 *)
Definition readerAt_Read (i : nat) (p : bytes) : prog rdres :=
  locked (MuB i) (
    b <- ldReaderAt i ;;
    if rb_closed b then Ret (0, p, Some ErrClosed) else
    match rb_err b with
    | Some e => Ret (0, p, Some e)
    | None =>
      c <- of_option PNil (rb_common b) ;;
      locked (MuC c) (
        cm <- ldReaderAtC c ;;
        let length := rc_length cm in
        let offset := if rb_offset b >? length then length else rb_offset b in
        let avail := length - offset in
        let eof := zlen p >? avail in
        let x := if eof then avail else zlen p in
        '(n, p', err) <-
          (if avail >? 0 then
             px <- of_option PRange (slice p 0 x) ;;
             '(n, px', err) <- readerAt_readAt cm px offset ;;
             Ret (n, px' ++ drop (Z.to_nat x) p, err)
           else Ret (0, p, None)) ;;
        let err := match err with None => if eof then Some EOF else None | Some e => Some e end in
        let offset := offset + n in
        perform (StoreB i (BReaderAt {| rb_common := rb_common b;
                                        rb_err := match err with None => rb_err b | Some e => Some e end;
                                        rb_offset := offset; rb_closed := rb_closed b |})) ;;;
        match err with
        | Some _ =>
            if offset <? rc_length cm
            then perform (StoreC c (CReaderAt {| rc_r := rc_r cm; rc_at := rc_at cm; rc_length := offset;
                                                 rc_refcnt := rc_refcnt cm |}))
            else Ret tt
        | None => Ret tt
        end ;;;
        Ret (n, p', err))
    end).

(** readerat.go:143-157 *)
Definition readerAt_Close (i : nat) : prog (option error) :=
  locked (MuB i) (
    b <- ldReaderAt i ;;
    if rb_closed b then Ret (Some ErrClosed) else
    perform (StoreB i (BReaderAt {| rb_common := None; rb_err := None; rb_offset := 0; rb_closed := true |})) ;;;
    c <- of_option PNil (rb_common b) ;;
    readerAt_unref c).

(** readerat.go:159-194 *)
Definition readerAt_Seek (i : nat) (offset whence : Z) : prog (Z * option error) :=
  locked (MuB i) (
    b <- ldReaderAt i ;;
    if rb_closed b then Ret (-1, Some ErrClosed) else
    c <- of_option PNil (rb_common b) ;;
    length <- readerAtCommon_BytesRemaining c ;;
    if (whence =? SeekStart) && (offset <? 0) then Ret (-1, Some (NegativeStartOffset offset)) else
    if negb ((whence =? SeekStart) || (whence =? SeekCurrent) || (whence =? SeekEnd))
      then Ret (-1, Some (UnknownWhence whence)) else
    let offset := if whence =? SeekCurrent then wrap64 (offset + rb_offset b)
                  else if whence =? SeekEnd then wrap64 (offset + length)
                  else offset in
    if offset <? 0 then Ret (-1, Some (NegativeComputedOffset offset)) else
    let offset := if offset >? length then length else offset in
    perform (StoreB i (BReaderAt {| rb_common := rb_common b; rb_err := None; rb_offset := offset;
                                    rb_closed := rb_closed b |})) ;;;
    Ret (offset, None)).

(** readerat.go:196-235 *)
Definition readerAt_ReadAt (i : nat) (p : bytes) (offset : Z) : prog rdres :=
  locked (MuB i) (
    b <- ldReaderAt i ;;
    if rb_closed b then Ret (0, p, Some ErrClosed) else
    if offset <? 0 then Ret (0, p, Some (ReadAtNegative offset)) else
    c <- of_option PNil (rb_common b) ;;
    locked (MuC c) (
      cm <- ldReaderAtC c ;;
      let length := rc_length cm in
      let offset := if offset >? length then length else offset in
      let avail := length - offset in
      let eof := zlen p >? avail in
      let x := if eof then avail else zlen p in
      '(n, p', err) <-
        (if avail >? 0 then
           px <- of_option PRange (slice p 0 x) ;;
           '(n, px', err) <- readerAt_readAt cm px offset ;;
           Ret (n, px' ++ drop (Z.to_nat x) p, err)
         else Ret (0, p, None)) ;;
      let err := match err with None => if eof then Some EOF else None | Some e => Some e end in
      Ret (n, p', err))).

(** readerat.go:237-253 *)
Definition readerAt_Copy (i : nat) : prog (nat * option error) :=
  locked (MuB i) (
    b <- ldReaderAt i ;;
    if rb_closed b then Ret (closedSingleton, None) else
    dupe <- perform (NewB (BReaderAt {| rb_common := rb_common b; rb_err := rb_err b;
                                        rb_offset := rb_offset b; rb_closed := rb_closed b |})) ;;
    c <- of_option PNil (rb_common b) ;;
    readerAt_ref c ;;;
    Ret (dupe, None)).

(** readerat.go:255-266 *)
Definition readerAt_Unwrap (i : nat) : prog (option rid) :=
  locked (MuB i) (
    b <- ldReaderAt i ;;
    if rb_closed b then Ret None else
    c <- of_option PNil (rb_common b) ;;
    locked (MuC c) (x <- ldReaderAtC c ;; Ret (rc_r x))).

(** ** buffered.go *)

(** buffered.go:11 *)
Definition blockSize : Z := 65536.

(** A map is a set of handles: [m[k] = struct{}{}] and [delete(m, k)]. *)
Definition set_add (k : nat) (m : list nat) : list nat :=
  if decide (k ∈ m) then m else m ++ [k].
Definition set_del (k : nat) (m : list nat) : list nat := filter (λ j, j ≠ k) m.

(** buffered.go:24-32; writing to a nil map panics. *)
Definition buffered_ref (c : nat) (k : nat) : prog unit :=
  locked (MuC c) (
    cm <- ldBufferedC c ;;
    m <- of_option PNil (bc_bodies cm) ;;
    b <- ldBuffered k ;;
    let refcnt := if bb_offset b =? bc_start cm then wrap32 (bc_refcnt cm + 1) else bc_refcnt cm in
    perform (StoreC c (CBuffered {| bc_r := bc_r cm; bc_err := bc_err cm; bc_bodies := Some (set_add k m);
               bc_bytes := bc_bytes cm; bc_length := bc_length cm; bc_start := bc_start cm;
               bc_refcnt := refcnt |}))).

(** buffered.go:85-93, the loop of updateStart.  Go iterates in an unspecified
    order; the model uses the list order, and the result is proved to be the
    same for every permutation (Buffered order theorem). *)
Fixpoint updateStart_loop (l : list nat) (beginNew refcnt : Z) : prog (Z * Z) :=
  match l with
  | [] => Ret (beginNew, refcnt)
  | k :: l =>
      b <- ldBuffered k ;;
      let '(beginNew, refcnt) :=
        if (refcnt <=? 0) || (bb_offset b <? beginNew) then (bb_offset b, 0) else (beginNew, refcnt) in
      let refcnt := if bb_offset b =? beginNew then wrap32 (refcnt + 1) else refcnt in
      updateStart_loop l beginNew refcnt
  end.

(** buffered.go:82-103; the caller holds [common.mu]. *)
Definition buffered_updateStart (c : nat) : prog unit :=
  cm <- ldBufferedC c ;;
  '(beginNew, refcnt) <- updateStart_loop (default [] (bc_bodies cm)) 0 0 ;;
  let beginOld := bc_start cm in
  assert (beginNew >=? beginOld) ;;;
  assert (refcnt >=? 1) ;;;
  let i := beginNew - beginOld in
  bs <- of_option PRange (slice (bc_bytes cm) i (zlen (bc_bytes cm))) ;;
  perform (StoreC c (CBuffered {| bc_r := bc_r cm; bc_err := bc_err cm; bc_bodies := bc_bodies cm;
             bc_bytes := bs; bc_length := bc_length cm; bc_start := beginNew; bc_refcnt := refcnt |})).

(** [common.refcnt--; if common.refcnt <= 0 { common.updateStart() }],
    buffered.go:42-45 and 75-78 *)
Definition buffered_drop (c : nat) : prog unit :=
  cm <- ldBufferedC c ;;
  let refcnt := wrap32 (bc_refcnt cm - 1) in
  perform (StoreC c (CBuffered {| bc_r := bc_r cm; bc_err := bc_err cm; bc_bodies := bc_bodies cm;
             bc_bytes := bc_bytes cm; bc_length := bc_length cm; bc_start := bc_start cm;
             bc_refcnt := refcnt |})) ;;;
  if refcnt <=? 0 then buffered_updateStart c else Ret tt.

(** buffered.go:34-64 *)
Definition buffered_unref (c : nat) (k : nat) : prog (option error) :=
  locked (MuC c) (
    cm <- ldBufferedC c ;;
    let m := option_map (set_del k) (bc_bodies cm) in
    perform (StoreC c (CBuffered {| bc_r := bc_r cm; bc_err := bc_err cm; bc_bodies := m;
               bc_bytes := bc_bytes cm; bc_length := bc_length cm; bc_start := bc_start cm;
               bc_refcnt := bc_refcnt cm |})) ;;;
    if zlen (default [] m) >? 0 then
      b <- ldBuffered k ;;
      (if bb_offset b =? bc_start cm then buffered_drop c else Ret tt) ;;;
      Ret None
    else
      perform (StoreC c (CBuffered {| bc_r := None; bc_err := None; bc_bodies := None; bc_bytes := [];
                 bc_length := 0; bc_start := 0; bc_refcnt := bc_refcnt cm |})) ;;;
      match bc_r cm with
      | Some r =>
          cp <- perform (Caps r) ;;
          if is_closer cp then perform (CallClose r) else Ret None
      | None => Ret None
      end).

(** buffered.go:66-80; the caller holds [common.mu]. *)
Definition buffered_advance (c : nat) (oldOffset newOffset : Z) : prog unit :=
  cm <- ldBufferedC c ;;
  let beginBuffer := bc_start cm in
  let endBuffer := beginBuffer + zlen (bc_bytes cm) in
  assert (oldOffset >=? beginBuffer) ;;;
  assert (newOffset >=? oldOffset) ;;;
  assert (endBuffer >=? newOffset) ;;;
  if (oldOffset =? beginBuffer) && negb (newOffset =? beginBuffer) then buffered_drop c else Ret tt.

(** buffered.go:113-139 *)
Definition buffered_BytesRemaining (i : nat) : prog Z :=
  locked (MuB i) (
    b <- ldBuffered i ;;
    if bb_closed b then Ret 0 else
    if bb_eof b then Ret 0 else
    c <- of_option PNil (bb_common b) ;;
    locked (MuC c) (
      cm <- ldBufferedC c ;;
      if bc_length cm <? 0 then Ret (-1) else
      let endOffset := bc_length cm in
      let beginOffset := if bb_offset b >? endOffset then endOffset else bb_offset b in
      Ret (endOffset - beginOffset))).

(** buffered.go:165-166: round up to a whole number of blocks,
    [int64(uint64(n+blockSize-1) &^ uint64(blockSize-1))]. *)
Definition round_block (n : Z) : Z :=
  wrap64 (Z.ldiff (u64 (wrap64 (n + blockSize - 1))) (u64 (blockSize - 1))).

(** buffered.go:185-207, the loop filling the buffer.  [bufNew] is the fresh
    array, [bufLen] the number of valid bytes in it.  Returns the final
    [endBuffer].  [fuel] bounds the number of iterations; with no fuel left the
    call has not returned ([Spin]). *)
Fixpoint buffered_fill (fuel : nat) (c : nat) (bufNew : bytes) (bufLen numToRead beginBuffer endBuffer : Z)
  : prog Z :=
  if numToRead >? 0 then
    match fuel with
    | O => Spin
    | S fuel =>
        let i := bufLen in
        let x := numToRead in
        let j := i + x in
        cm <- ldBufferedC c ;;
        r <- of_option PNil (bc_r cm) ;;
        buf <- of_option PRange (slice bufNew i j) ;;
        '(n, buf', err) <- perform (CallRead r buf) ;;
        let bufNew := take (Z.to_nat i) bufNew ++ buf' ++ drop (Z.to_nat j) bufNew in
        assert (n >=? 0) ;;;
        assert (n <=? x) ;;;
        let bufLen := bufLen + n in
        let numToRead := numToRead - n in
        bs <- of_option PRange (slice bufNew 0 bufLen) ;;
        let endBuffer := beginBuffer + bufLen in
        match err with
        | Some e =>
            perform (StoreC c (CBuffered {| bc_r := bc_r cm; bc_err := Some e; bc_bodies := bc_bodies cm;
                       bc_bytes := bs; bc_length := endBuffer; bc_start := bc_start cm;
                       bc_refcnt := bc_refcnt cm |})) ;;;
            Ret endBuffer
        | None =>
            perform (StoreC c (CBuffered {| bc_r := bc_r cm; bc_err := bc_err cm; bc_bodies := bc_bodies cm;
                       bc_bytes := bs; bc_length := bc_length cm; bc_start := bc_start cm;
                       bc_refcnt := bc_refcnt cm |})) ;;;
            buffered_fill fuel c bufNew bufLen numToRead beginBuffer endBuffer
        end
    end
  else Ret endBuffer.

(** buffered.go:164-213: fetch more of the stream if needed; returns the final
    [endBuffer]. *)
Definition buffered_fetch (fuel : nat) (c : nat) (beginBuffer endBuffer endOffset : Z) : prog Z :=
  cm <- ldBufferedC c ;;
  if match bc_err cm with None => endOffset >? endBuffer | Some _ => false end then
    let numToRead := round_block (endOffset - endBuffer) in
    '(numToRead, eof) <-
      (if bc_length cm >=? 0 then
         assert (endBuffer <=? bc_length cm) ;;;
         let remain := bc_length cm - endBuffer in
         Ret (if numToRead >=? remain then (remain, true) else (numToRead, false))
       else Ret (numToRead, false)) ;;
    let bufLen := endBuffer - beginBuffer in
    let bufCap := bufLen + numToRead in
    if bufCap <? 0 then Panic PRange else     (* make: len out of range *)
    old <- of_option PRange (slice (bc_bytes cm) 0 bufLen) ;;
    bufNew <- of_option PRange (copy_into (repeat zero_byte (Z.to_nat bufCap)) 0 bufLen old) ;;
    bs <- of_option PRange (slice bufNew 0 bufLen) ;;
    perform (StoreC c (CBuffered {| bc_r := bc_r cm; bc_err := bc_err cm; bc_bodies := bc_bodies cm;
               bc_bytes := bs; bc_length := bc_length cm; bc_start := bc_start cm;
               bc_refcnt := bc_refcnt cm |})) ;;;
    endBuffer <- buffered_fill fuel c bufNew bufLen numToRead beginBuffer endBuffer ;;
    cm <- ldBufferedC c ;;
    (if eof && match bc_err cm with None => true | Some _ => false end then
       perform (StoreC c (CBuffered {| bc_r := bc_r cm; bc_err := Some EOF; bc_bodies := bc_bodies cm;
                  bc_bytes := bc_bytes cm; bc_length := endBuffer; bc_start := bc_start cm;
                  bc_refcnt := bc_refcnt cm |}))
     else Ret tt) ;;;
    Ret endBuffer
  else Ret endBuffer.

(** buffered.go:141-229 *)
Definition buffered_Read (fuel : nat) (i : nat) (p : bytes) : prog rdres :=
  locked (MuB i) (
    b <- ldBuffered i ;;
    if bb_closed b then Ret (0, p, Some ErrClosed) else
    c <- of_option PNil (bb_common b) ;;
    locked (MuC c) (
      cm <- ldBufferedC c ;;
      if bb_eof b then Ret (0, p, bc_err cm) else
      let beginBuffer := bc_start cm in
      let endBuffer := beginBuffer + zlen (bc_bytes cm) in
      let beginOffset := bb_offset b in
      let endOffset := wrap64 (beginOffset + zlen p) in
      assert (beginOffset >=? beginBuffer) ;;;
      endBuffer <- buffered_fetch fuel c beginBuffer endBuffer endOffset ;;
      cm <- ldBufferedC c ;;
      let err := if endOffset >? endBuffer then bc_err cm else None in
      let eof := if endOffset >? endBuffer then true else bb_eof b in
      let endOffset := if endOffset >? endBuffer then endBuffer else endOffset in
      let i' := beginOffset - beginBuffer in
      let j := endOffset - beginBuffer in
      let n := j - i' in
      src <- of_option PRange (slice (bc_bytes cm) i' j) ;;
      p' <- of_option PRange (copy_into p 0 n src) ;;
      perform (StoreB i (BBuffered {| bb_common := bb_common b; bb_offset := endOffset; bb_eof := eof;
                                      bb_closed := bb_closed b |})) ;;;
      buffered_advance c beginOffset endOffset ;;;
      Ret (n, p', err))).

(** buffered.go:231-245 *)
Definition buffered_Close (i : nat) : prog (option error) :=
  locked (MuB i) (
    b <- ldBuffered i ;;
    if bb_closed b then Ret (Some ErrClosed) else
    c <- of_option PNil (bb_common b) ;;
    err <- buffered_unref c i ;;
    perform (StoreB i (BBuffered {| bb_common := None; bb_offset := 0; bb_eof := false; bb_closed := true |})) ;;;
    Ret err).

(** buffered.go:247-263 *)
Definition buffered_Copy (i : nat) : prog (nat * option error) :=
  locked (MuB i) (
    b <- ldBuffered i ;;
    if bb_closed b then Ret (closedSingleton, None) else
    dupe <- perform (NewB (BBuffered {| bb_common := bb_common b; bb_offset := bb_offset b;
                                        bb_eof := bb_eof b; bb_closed := bb_closed b |})) ;;
    c <- of_option PNil (bb_common b) ;;
    buffered_ref c dupe ;;;
    Ret (dupe, None)).

(** buffered.go:265-279 *)
Definition buffered_Unwrap (i : nat) : prog (option rid) :=
  locked (MuB i) (
    b <- ldBuffered i ;;
    if bb_closed b then Ret None else
    c <- of_option PNil (bb_common b) ;;
    locked (MuC c) (cm <- ldBufferedC c ;; Ret (bc_r cm))).

(** ** body.go: constructors *)

(** body.go:104-106 *)
Definition AlreadyClosed : prog nat := Ret closedSingleton.

(** body.go:115-117 *)
Definition Empty : prog nat := perform (NewB (BEmpty {| em_eof := false; em_closed := false |})).

(** body.go:129-134.  The Body aliases the caller's slice, which by the
    documented contract is not modified afterwards. *)
Definition FromBytes (data : bytes) : prog nat :=
  if zlen data =? 0 then Empty else
  perform (NewB (BBytes {| by_data := data; by_offset := 0; by_eof := false; by_closed := false |})).

(** body.go:143-149 *)
Definition FromString (data : string) : prog nat :=
  if Z.of_nat (String.length data) =? 0 then Empty else
  let raw := String.list_ascii_of_string data in
  perform (NewB (BBytes {| by_data := raw; by_offset := 0; by_eof := false; by_closed := false |})).

(** body.go:291-355; the result is a Body handle or an error. *)
Definition FromReaderAndLength (r : rid) (length : Z) : prog (nat + error) :=
  let length := if length <? 0 then -1 else length in
  cp <- perform (Caps r) ;;
  st <- (if cp_file cp && (length <? 0) then
           '(size, err) <- perform (CallStat r) ;;
           match err with
           | Some e => Ret (inr (StatFailed e))
           | None => assert (size >=? 0) ;;; Ret (inl size)
           end
         else Ret (inl length)) ;;
  match st with
  | inr e => Ret (inr e)
  | inl length =>
    st <- (if cp_seeker cp && (length <? 0) then
             '(len, err) <- perform (CallSeek r 0 SeekEnd) ;;
             match err with
             | Some e => Ret (inr (SeekEndFailed e))
             | None =>
                 assert (len >=? 0) ;;;
                 '(_, err) <- perform (CallSeek r 0 SeekStart) ;;
                 match err with
                 | Some e => Ret (inr (SeekStartFailed e))
                 | None => Ret (inl len)
                 end
             end
           else Ret (inl length)) ;;
    match st with
    | inr e => Ret (inr e)
    | inl length =>
      if cp_readerat cp && (length >=? 0) then
        c <- perform (NewC (CReaderAt {| rc_r := Some r; rc_at := Some r; rc_length := length; rc_refcnt := 0 |})) ;;
        b <- perform (NewB (BReaderAt {| rb_common := Some c; rb_err := None; rb_offset := 0; rb_closed := false |})) ;;
        readerAt_ref c ;;;
        Ret (inl b)
      else if cp_seeker cp && (length >=? 0) then
        c <- perform (NewC (CSeeker {| sc_s := Some r; sc_length := length; sc_refcnt := 0 |})) ;;
        b <- perform (NewB (BSeeker {| sb_common := Some c; sb_err := None; sb_offset := 0; sb_closed := false |})) ;;
        seeker_ref c ;;;
        Ret (inl b)
      else
        c <- perform (NewC (CBuffered {| bc_r := Some r; bc_err := None; bc_bodies := Some []; bc_bytes := [];
                                         bc_length := length; bc_start := 0; bc_refcnt := 0 |})) ;;
        b <- perform (NewB (BBuffered {| bb_common := Some c; bb_offset := 0; bb_eof := false; bb_closed := false |})) ;;
        buffered_ref c b ;;;
        Ret (inl b)
    end
  end.

(** body.go:277-285 for a Reader that is not itself a Body *)
Definition FromReader (r : rid) : prog (nat + error) := FromReaderAndLength r (-1).
(** body.go:280-282: a Reader that is a Body is returned as it is *)
Definition FromReader_Body (b : nat) : prog (nat + error) := Ret (inl b).

(** ** Dynamic dispatch *)

Inductive op :=
| BytesRemaining
| Read (p : bytes)
| Close
| Seek (offset whence : Z)
| ReadAt (p : bytes) (offset : Z)
| WriteTo (w : wid)
| Copy
| Unwrap.

Inductive res :=
| RInt (z : Z)
| RRead (n : Z) (p : bytes) (err : option error)
| RErr (err : option error)
| RSeek (n : Z) (err : option error)
| RWriteTo (n : Z) (err : option error)
| RBody (b : nat) (err : option error)
| RFail (err : error)                       (* constructor returned (nil, err) *)
| RReader (r : option rid)
| RNoMethod.                                (* the dynamic type lacks this method *)

Definition rint (m : prog Z) : prog res := z <- m ;; Ret (RInt z).
Definition rread (m : prog rdres) : prog res := '(n, p, e) <- m ;; Ret (RRead n p e).
Definition rerr (m : prog (option error)) : prog res := e <- m ;; Ret (RErr e).
Definition rseek (m : prog (Z * option error)) : prog res := '(n, e) <- m ;; Ret (RSeek n e).
Definition rwriteto (m : prog (Z * option error)) : prog res := '(n, e) <- m ;; Ret (RWriteTo n e).
Definition rbody (m : prog (nat * option error)) : prog res := '(b, e) <- m ;; Ret (RBody b e).
Definition rreader (m : prog (option rid)) : prog res := r <- m ;; Ret (RReader r).
Definition rnew (m : prog nat) : prog res := b <- m ;; Ret (RBody b None).
Definition rfrom (m : prog (nat + error)) : prog res :=
  x <- m ;; match x with inl b => Ret (RBody b None) | inr e => Ret (RFail e) end.

(** Method call on an interface value whose dynamic type is that of [o]:
    the method tables of closed.go, empty.go, bytes.go, seeker.go, readerat.go
    and buffered.go.  An interface value never changes its dynamic type, so the
    lookup of the type is not an access to the object's mutable state. *)
Definition method (fuel : nat) (o : bobj) (i : nat) (f : op) : prog res :=
  match o, f with
  | BClosed, BytesRemaining => rint closed_BytesRemaining
  | BClosed, Read p => rread (closed_Read p)
  | BClosed, Close => rerr closed_Close
  | BClosed, Seek off wh => rseek (closed_Seek off wh)
  | BClosed, ReadAt p off => rread (closed_ReadAt p off)
  | BClosed, WriteTo w => rwriteto closed_WriteTo
  | BClosed, Copy => rbody closed_Copy
  | BClosed, Unwrap => rreader closed_Unwrap
  | BEmpty _, BytesRemaining => rint (empty_BytesRemaining i)
  | BEmpty _, Read p => rread (empty_Read i p)
  | BEmpty _, Close => rerr (empty_Close i)
  | BEmpty _, Seek off wh => rseek (empty_Seek i off wh)
  | BEmpty _, ReadAt p off => rread (empty_ReadAt i p off)
  | BEmpty _, WriteTo w => rwriteto (empty_WriteTo i)
  | BEmpty _, Copy => rbody (empty_Copy i)
  | BEmpty _, Unwrap => rreader (empty_Unwrap i)
  | BBytes _, BytesRemaining => rint (bytes_BytesRemaining i)
  | BBytes _, Read p => rread (bytes_Read i p)
  | BBytes _, Close => rerr (bytes_Close i)
  | BBytes _, Seek off wh => rseek (bytes_Seek i off wh)
  | BBytes _, ReadAt p off => rread (bytes_ReadAt i p off)
  | BBytes _, WriteTo w => rwriteto (bytes_WriteTo i w)
  | BBytes _, Copy => rbody (bytes_Copy i)
  | BBytes _, Unwrap => rreader (bytes_Unwrap i)
  | BSeeker _, BytesRemaining => rint (seeker_BytesRemaining i)
  | BSeeker _, Read p => rread (seeker_Read i p)
  | BSeeker _, Close => rerr (seeker_Close i)
  | BSeeker _, Seek off wh => rseek (seeker_Seek i off wh)
  | BSeeker _, ReadAt p off => rread (seeker_ReadAt i p off)
  | BSeeker _, WriteTo w => Ret RNoMethod
  | BSeeker _, Copy => rbody (seeker_Copy i)
  | BSeeker _, Unwrap => rreader (seeker_Unwrap i)
  | BReaderAt _, BytesRemaining => rint (readerAt_BytesRemaining i)
  | BReaderAt _, Read p => rread (readerAt_Read i p)
  | BReaderAt _, Close => rerr (readerAt_Close i)
  | BReaderAt _, Seek off wh => rseek (readerAt_Seek i off wh)
  | BReaderAt _, ReadAt p off => rread (readerAt_ReadAt i p off)
  | BReaderAt _, WriteTo w => Ret RNoMethod
  | BReaderAt _, Copy => rbody (readerAt_Copy i)
  | BReaderAt _, Unwrap => rreader (readerAt_Unwrap i)
  | BBuffered _, BytesRemaining => rint (buffered_BytesRemaining i)
  | BBuffered _, Read p => rread (buffered_Read fuel i p)
  | BBuffered _, Close => rerr (buffered_Close i)
  | BBuffered _, Seek _ _ => Ret RNoMethod
  | BBuffered _, ReadAt _ _ => Ret RNoMethod
  | BBuffered _, WriteTo _ => Ret RNoMethod
  | BBuffered _, Copy => rbody (buffered_Copy i)
  | BBuffered _, Unwrap => rreader (buffered_Unwrap i)
  end.

(** ** Histories *)
Inductive cmd :=
| Call (i : nat) (f : op)                    (* a method call on handle [i] *)
| NewClosed | NewEmpty
| NewBytes (d : bytes) | NewString (s : string)
| NewReader (r : rid) | NewReaderLen (r : rid) (len : Z)
| NewReaderBody (b : nat).

Section History.
Context {W : Type} (E : env W) (fuel : nat).

(** A program holds no handle it was never given: a call on a handle that does
    not exist is reported as a nil dereference. *)
Definition cmd_prog (h : heap W) (c : cmd) : prog res :=
  match c with
  | Call i f => match h_b h !! i with Some o => method fuel o i f | None => Panic PNil end
  | NewClosed => rnew AlreadyClosed
  | NewEmpty => rnew Empty
  | NewBytes d => rnew (FromBytes d)
  | NewString s => rnew (FromString s)
  | NewReader r => rfrom (FromReader r)
  | NewReaderLen r len => rfrom (FromReaderAndLength r len)
  | NewReaderBody b => match h_b h !! b with Some _ => rfrom (FromReader_Body b) | None => Panic PNil end
  end.

Definition exec (h : heap W) (c : cmd) : heap W * out res := run E h (cmd_prog h c).

(** A program that recovers from panics and goes on; a call that does not
    return ends the history. *)
Fixpoint history (h : heap W) (cs : list cmd) : heap W * list (out res) :=
  match cs with
  | [] => (h, [])
  | c :: cs =>
      let '(h', o) := exec h c in
      match o with
      | OSpin => (h', [OSpin])
      | _ => let '(h'', os) := history h' cs in (h'', o :: os)
      end
  end.

(** The heap of a program that has created no Body yet. *)
Definition initial (w : W) : heap W := {| h_b := [BClosed]; h_c := []; h_w := w; h_log := [] |}.

End History.
