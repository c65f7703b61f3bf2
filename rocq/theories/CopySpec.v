(** * What a program sees of one handle *)
From stdpp Require Import gmap.
From Verif Require Export SourceSpec.

(** The calls a program makes on the handle [j], and what it gets. *)
Definition on_handle (j : nat) (c : cmd) : option op :=
  match c with Call i f => if decide (i = j) then Some f else None | _ => None end.
Definition ops_on (j : nat) (cs : list cmd) : list op := omap (on_handle j) cs.
Definition seen (j : nat) (cs : list cmd) (os : list (out res)) : list (out res) :=
  omap (fun co => match on_handle j (fst co) with Some _ => Some (snd co) | None => None end) (zip cs os).

(** The same result, but for the name of a new copy and, if [shared], for the
    error of a Close: only the last Close of a family closes the Reader (C07). *)
Definition alike (shared : bool) (o o' : out res) : Prop :=
  match o, o' with
  | ORet (RBody _ None), ORet (RBody _ None) => True
  | ORet (RErr e), ORet (RErr e') => shared = true \/ e = e'
  | _, _ => o = o'
  end.

(** The handle [j] is the Body [i] or one of the copies made from it by the
    program [cs] with results [os]. *)
Definition copy_of (i : nat) (cs : list cmd) (os : list (out res)) (j : nat) : Prop :=
  is_Some (tracks {[ i := true ]} cs os !! j).

(** The program goes on with [cs], passing [r] to no constructor; all calls return. *)
Definition goes_on {W} (E : env W) (fuel : nat) (r : rid) (h : heap W) (cs : list cmd) (h' : heap W) (os : list (out res)) : Prop :=
  history E fuel h cs = (h', os) /\ OSpin ∉ os /\ Forall go_cmd cs /\ Forall (fun c => ~ wraps r c) cs /\ feasible h'.

Definition is_WriteTo (f : op) : bool := match f with WriteTo _ => true | _ => false end.
Definition is_BytesRemaining (f : op) : bool := match f with BytesRemaining => true | _ => false end.
