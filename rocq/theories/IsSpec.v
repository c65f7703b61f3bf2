(** * What errors.Is asks: whether the target is in the chain of the error

    One error carries another if it was made with %w from it (body.go:305, 316, 322) or
    is some other package's error whose Unwrap gives it. *)
From Verif Require Export GoBase.

Inductive carries : error -> error -> Prop :=
| carries_stat e : carries (StatFailed e) e
| carries_end e : carries (SeekEndFailed e) e
| carries_start e : carries (SeekStartFailed e) e
| carries_external n e : carries (ExternalWrap n e) e.
