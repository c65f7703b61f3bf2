(** * What a script of a MockReader says *)
From Verif Require Export MockModel.

Section Spec.
Context {F : Type}.

(** A line of a script: a call of the test and its answer.  [p] are the bytes
    delivered, the first [n] of them; a call must have a buffer as long as [p]. *)
Inductive line :=
| LMark (str : string)
| LStat (fi : option F) (err : option error)
| LRead (p : bytes) (n : Z) (err : option error)
| LReadAt (p : bytes) (offset n : Z) (err : option error)
| LSeek (offset whence newOffset : Z) (err : option error)
| LClose (err : option error)
| LNothing.                                       (* Expectation{} *)

(** The expectation the line is written as. *)
Definition written (l : line) : option (expectation F) :=
  match l with
  | LMark str => Some (expectMark str)
  | LStat fi err => Some (expectStat fi err)
  | LRead p n err => expectRead p n err
  | LReadAt p offset n err => expectReadAt p offset n err
  | LSeek offset whence n err => Some (expectSeek offset whence n err)
  | LClose err => Some (expectClose err)
  | LNothing => Some zeroExpectation
  end.

(** The answer to a call, if the line is about this call. *)
Inductive answers : line -> mcall -> mout F -> Prop :=
| an_mark str : answers (LMark str) (MMark str) MUnit
| an_stat fi err : answers (LStat fi err) MStat (MInfo fi err)
| an_read p n err q : length q = length p ->
    answers (LRead p n err) (MRead q) (MBytes n (take (Z.to_nat n) p ++ drop (Z.to_nat n) q) err)
| an_readat p off n err q : length q = length p ->
    answers (LReadAt p off n err) (MReadAt q off) (MBytes n (take (Z.to_nat n) p ++ drop (Z.to_nat n) q) err)
| an_seek off whence n err : answers (LSeek off whence n err) (MSeek off whence) (MInt n err)
| an_close err : answers (LClose err) MClose (MErr err).

(** A panic that names the number of the call and the line that was next. *)
Definition complains (i : nat) (x : expectation F) (o : mout F) : Prop := exists actual, o = MFailed i x actual.
Definition is_panic (o : mout F) : Prop := o = MRange \/ exists i x, complains i x o.
End Spec.
Arguments line : clear implicits.
