(** * Specification of Bodies over Readers that panic *)
From stdpp Require Import gmap.
From Verif Require Export SourceSpec PanicModel.

(** The panics Readers raise, and those they do not raise in Close. *)
Definition raised {W} (P : hazard W) (e : panic) : Prop := exists w c w', P w c = Some (w', e).
Definition spares_close {W} (P : hazard W) : Prop := forall w r, P w (XClose r) = None.
(** A Reader that panics keeps [live], or its position. *)
Definition keeps {W} (P : hazard W) (live : W -> Prop) : Prop :=
  forall w c w' e, P w c = Some (w', e) -> live w -> live w'.
Definition holds_position {W} (P : hazard W) (gp : W -> nat) : Prop :=
  forall w c w' e, P w c = Some (w', e) -> gp w' = gp w.

(** The heaps programs can reach. *)
Definition xreaches {W} (E : env W) (P : hazard W) (fuel : nat) (h : heap W) : Prop :=
  exists w cs os, Forall go_cmd cs /\ xhistory E P fuel (initial w) cs = (h, os) /\ feasible h.

(** As [wrapped_once]. *)
Definition xwrapped_once {W} (E : env W) (P : hazard W) (fuel : nat) (r : rid) (w : W) (h1 : heap W) (i : nat)
    (cs : list cmd) (h2 : heap W) (os : list (out res)) : Prop :=
  go_env E /\
  exists cs0 os0 h0 new,
    Forall go_cmd (cs0 ++ new :: cs) /\ Forall (fun c => ~ wraps r c) (cs0 ++ cs) /\ wraps r new /\
    xhistory E P fuel (initial w) cs0 = (h0, os0) /\
    xexec E P fuel h0 new = (h1, ORet (RBody i None)) /\
    xhistory E P fuel h1 cs = (h2, os) /\ feasible h2.

(** The program and its observations without the calls that panicked. *)
Fixpoint without_panics (cs : list cmd) (os : list (out res)) : list cmd * list (out res) :=
  match cs, os with
  | c :: cs, o :: os =>
      let '(cs', os') := without_panics cs os in
      match o with OPanic _ => (cs', os') | _ => (c :: cs', o :: os') end
  | _, _ => ([], [])
  end.

(** The commands in which a Reader other than one being closed is called. *)
Definition may_panic (c : cmd) : Prop :=
  match c with
  | Call _ (Read _) | Call _ (ReadAt _ _) => True
  | NewReader _ | NewReaderLen _ _ => True
  | _ => False
  end.
