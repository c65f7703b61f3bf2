(** * A concrete outside world for the response package, used by the examples only *)
From stdpp Require Import gmap.
From Verif Require Export RespSpec Witness.

Global Instance slice_eq : EqDecision slice_.
Proof. solve_decision. Defined.

Definition all_caps : wcaps := {| wc_pusher := true; wc_flusher := true; wc_closenotifier := true; wc_hijacker := true; wc_readerfrom := true |}.
Definition flush_only : wcaps := {| wc_pusher := false; wc_flusher := true; wc_closenotifier := false; wc_hijacker := false; wc_readerfrom := true |}.
Definition no_caps : wcaps := {| wc_pusher := false; wc_flusher := false; wc_closenotifier := false; wc_hijacker := false; wc_readerfrom := false |}.

Definition web (ss : list source) (cp : uid -> wcaps) (wr : bytes -> Z * option error) (push : string -> option error)
    (rf : option (out res) -> op + (Z * option error + panic)) : uenv (list nat) :=
  {| u_env :=
       {| ev_caps := ev_caps (demo ss); ev_read := ev_read (demo ss); ev_readat := ev_readat (demo ss); ev_seek := ev_seek (demo ss);
          ev_close := ev_close (demo ss); ev_stat := ev_stat (demo ss); ev_write := fun w _ p => (w, inl (wr p)) |};
     u_hazard := fun _ _ => None;
     u_caps := cp;
     u_map := fun _ u => u;
     u_writeheader := fun w _ _ => (w, None);
     u_push := fun w _ url => (w, inl (push url));
     u_flush := fun w _ => (w, None);
     u_readfrom := fun w _ last => (w, rf last);
     u_redirect := fun w _ _ _ => (w, inl (None, None));
     u_error := fun w _ _ _ => (w, inl (None, None));
     u_onpanic := fun w _ _ => (w, None);
     u_mime := fun s => if String.eqb s "" then None else Some s;
     u_statustext := fun c => if c =? 404 then "Not Found" else if c =? 500 then "Internal Server Error" else "OK";
     u_grow := fun _ => 1%nat |}.
(** Accepts everything. *)
Definition accepts (p : bytes) : Z * option error := (zlen p, None).
(** Reads 64 bytes once and reports them. *)
Definition reads_once (last : option (out res)) : op + (Z * option error + panic) :=
  match last with
  | None => inl (Read (buf 64))
  | Some (ORet (RRead n _ _)) => inr (inl (n, None))
  | Some _ => inr (inl (0, Some (External 3)))
  end.
(** Fails after 2 bytes. *)
Definition fails_soon (last : option (out res)) : op + (Z * option error + panic) :=
  match last with
  | None => inl (Read (buf 2))
  | Some _ => inr (inl (2, Some (External 7)))
  end.
Definition web_ok (ss : list source) : uenv (list nat) := web ss (fun _ => all_caps) accepts (fun _ => None) reads_once.
(** The same, with Readers that panic. *)
Definition with_hazard {V} (U : uenv V) (P : hazard V) : uenv V :=
  {| u_env := u_env U; u_hazard := P; u_caps := u_caps U; u_map := u_map U; u_writeheader := u_writeheader U; u_push := u_push U;
     u_flush := u_flush U; u_readfrom := u_readfrom U; u_redirect := u_redirect U; u_error := u_error U; u_onpanic := u_onpanic U;
     u_mime := u_mime U; u_statustext := u_statustext U; u_grow := u_grow U |}.
(** The start: [n] ResponseWriters whose header maps are empty. *)
Definition start (ss : list source) (n : nat) : state (list nat) := tinitial (map (fun _ => 0%nat) ss) n (replicate n ∅) [].
Definition after {V} (U : uenv V) (fuel : nat) (s : state V) (cs : list tcmd) : state V := (thistory U fuel s cs).1.
Lemma after_reaches (U : uenv (list nat)) fuel ss n cs : treaches U fuel (after U fuel (start ss n) cs).
Proof.
  unfold after, start. eexists _, _, _, _, cs, _. split; [|apply surjective_pairing].
  intros m x Hx key v Hv. apply lookup_replicate in Hx as [-> _]. by rewrite lookup_empty in Hv.
Qed.
