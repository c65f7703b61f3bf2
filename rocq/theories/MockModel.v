(** * internal/mockreader: the test double

    Not modelled: formatting (String, GoString, Error) and the mutex, which every
    call holds only while it takes its expectation.  A slice kept by an Expectation
    is a value, i.e. its owner does not change it afterwards. *)
From Verif Require Export GoBase.

(** op.go:9-19 *)
Inductive mop := UnknownOp | MarkOp | StatOp | ReadOp | ReadAtOp | SeekOp | CloseOp.
Global Instance mop_eq_dec : EqDecision mop.
Proof. solve_decision. Defined.

Section Mock.
(** The fs.FileInfo values. *)
Context {F : Type}.

(** mockreader.go:15-25 (hasOutput is for formatting only) *)
Record expectation := Expect {
  x_op : mop; x_input0 : bytes; x_input1 : Z; x_input2 : Z; x_input3 : string;
  x_output0 : Z; x_output1 : option F; x_output2 : option error }.
(** Expectation{} *)
Definition zeroExpectation : expectation := Expect UnknownOp [] 0 0 "" 0 None None.

(** mockreader.go:27-86; [None] is a failed assertion. *)
Definition expectMark (str : string) : expectation := Expect MarkOp [] 0 0 str 0 None None.
Definition expectStat (fi : option F) (err : option error) : expectation := Expect StatOp [] 0 0 "" 0 fi err.
Definition expectRead (p : bytes) (n : Z) (err : option error) : option expectation :=
  if (n >=? 0) && (n <=? zlen p) then Some (Expect ReadOp p 0 0 "" n None err) else None.
Definition expectReadAt (p : bytes) (offset n : Z) (err : option error) : option expectation :=
  if (n >=? 0) && (n <=? zlen p) then Some (Expect ReadAtOp p offset 0 "" n None err) else None.
Definition expectSeek (offset whence newOffset : Z) (err : option error) : expectation :=
  Expect SeekOp [] offset whence "" newOffset None err.
Definition expectClose (err : option error) : expectation := Expect CloseOp [] 0 0 "" 0 None err.

(** mockreader.go:88-94 *)
Definition matches (x y : expectation) : bool :=
  bool_decide (x_op x = x_op y) && (x_input1 x =? x_input1 y) && (x_input2 x =? x_input2 y) &&
  bool_decide (x_input3 x = x_input3 y) && (zlen (x_input0 x) =? zlen (x_input0 y)).

(** mockreader.go:247-251, :243-245 *)
Record mockReader := Mock { mk_expect : list expectation; mk_index : nat }.
Definition newMock (l : list expectation) : mockReader := Mock l 0.

(** mockreader.go:253-269; the receiver can be nil. *)
Definition mnext (r : option mockReader) : option mockReader * (nat * expectation) :=
  match r with
  | None => (None, (0%nat, zeroExpectation))
  | Some m =>
      match mk_expect m !! mk_index m with
      | None => (r, (length (mk_expect m), zeroExpectation))
      | Some x => (Some (Mock (mk_expect m) (S (mk_index m))), (mk_index m, x))
      end
  end.

(** Calls and what becomes of them: the results (with the contents of the buffer),
    panic(ExpectationFailedError{...}) or a slice out of range. *)
Inductive mcall := MMark (str : string) | MStat | MRead (p : bytes) | MReadAt (p : bytes) (offset : Z) | MSeek (offset whence : Z) | MClose.
Inductive mout :=
| MUnit | MInfo (fi : option F) (err : option error) | MBytes (n : Z) (p : bytes) (err : option error)
| MInt (n : Z) (err : option error) | MErr (err : option error)
| MFailed (index : nat) (expect actual : expectation) | MRange.

(** mockreader.go:309-314 and :326-331 *)
Definition mfill (x : expectation) (p : bytes) : mout :=
  let n := x_output0 x in
  if n >? 0 then
    match slice (x_input0 x) 0 n with
    | None => MRange
    | Some src => match copy_into p 0 n src with None => MRange | Some p' => MBytes n p' (x_output2 x) end
    end
  else MBytes n p (x_output2 x).

(** mockreader.go:271-359 *)
Definition mdo (r : option mockReader) (c : mcall) : option mockReader * mout :=
  let check (actual : expectation) (ok : expectation -> mout) :=
    let '(r', (index, expect)) := mnext r in
    (r', if matches expect actual then ok expect else MFailed index expect actual) in
  match c with
  | MMark str => match r with None => (None, MUnit) | Some _ => check (Expect MarkOp [] 0 0 str 0 None None) (fun _ => MUnit) end
  | MStat => check (Expect StatOp [] 0 0 "" 0 None None) (fun x => MInfo (x_output1 x) (x_output2 x))
  | MRead p => check (Expect ReadOp p 0 0 "" 0 None None) (fun x => mfill x p)
  | MReadAt p offset => check (Expect ReadAtOp p offset 0 "" 0 None None) (fun x => mfill x p)
  | MSeek offset whence => check (Expect SeekOp [] offset whence "" 0 None None) (fun x => MInt (x_output0 x) (x_output2 x))
  | MClose => check (Expect CloseOp [] 0 0 "" 0 None None) (fun x => MErr (x_output2 x))
  end.

(** Calls one after the other; a caller can recover from a panic and go on. *)
Fixpoint mrun (r : option mockReader) (cs : list mcall) : list mout :=
  match cs with
  | [] => []
  | c :: cs => let '(r', o) := mdo r c in o :: mrun r' cs
  end.
End Mock.
Arguments expectation : clear implicits. Arguments mockReader : clear implicits. Arguments mout : clear implicits.
