(** * Vocabulary for the properties of Response.Serve *)
From stdpp Require Import gmap.
From Verif Require Export BuilderSpec.

(** The outside writer reached through the ResponseWriter [k], and the wrapper, if
    any, that its calls go through. *)
Definition target {V} (s : state V) (k : wid) : option (option wid * uid) :=
  match v_objs (world s) !! k with
  | Some (WRaw u) => Some (None, u)
  | Some (WWrap x) => Some (Some k, ww_next x)
  | _ => None
  end.

(** ** Server push *)
(** The values of the Response's Push header. *)
Definition push_urls {V} (s : state V) (x : response) : list string :=
  match hview s (rp_hdrs x) with Some X => default [] (X !! "Push") | None => [] end.

(** [pushing urls l e]: Push is called for [urls] in order with the results [l].
    ErrNotSupported is ignored; the first other error, or a panic, is [e], and
    ends it. *)
Inductive pushing : list string -> list (string * (option error + panic)) -> option (error + panic) -> Prop :=
| pushed_all : pushing [] [] None
| pushed_ok url urls l e : pushing urls l e -> pushing (url :: urls) ((url, inl None) :: l) e
| push_unsupported url urls l e err :
    errors_Is err ErrNotSupported = true -> pushing urls l e -> pushing (url :: urls) ((url, inl (Some err)) :: l) e
| push_fails url urls err :
    errors_Is err ErrNotSupported = false -> pushing (url :: urls) [(url, inl (Some err))] (Some (inl err))
| push_panics url urls p : pushing (url :: urls) [(url, inr p)] (Some (inr p)).

(** The calls of Push as they appear in the log. *)
Definition push_events (by_ : option wid) (u : uid) (l : list (string * (option error + panic))) : list uev :=
  map (fun x => UPush by_ u x.1 x.2) l.

(** The Response [r] is served on [k], which ends with [o] and in [s'], after the
    calls [new] on the outside writer. *)
Definition serving {V} (U : uenv V) (fuel : nat) (s : state V) (r : nat) (k : wid) (s' : state V) (o : out reply) (new : list uev) : Prop :=
  texec U fuel (TDo (RServe r k)) s = (s', o) /\ wlog s' = wlog s ++ new.

(** What is logged when WriteHeader is called on a ResponseWriter. *)
Definition asked (by_ : option wid) (st : Z) : list uev := match by_ with Some k => [UAsked k st] | None => [] end.
(** Neither a push nor a call of WriteHeader by the program. *)
Definition ordinary (e : uev) : Prop := match e with UPush _ _ _ _ | UAsked _ _ => False | _ => True end.
(** A status has been sent among the calls [new]. *)
Definition status_sent (new : list uev) : Prop := exists by_ u st res, UHeader by_ u st res ∈ new.

(** Body [i] is closed: nothing but ErrClosed can be got from it (RNoMethod:
    its type has no such method). *)
Definition is_closed {V} (U : uenv V) (fuel : nat) (s : state V) (i : nat) : Prop :=
  exists b, h_b (s_h s) !! i = Some b /\
  forall f, texec U fuel (TDo (RB (Call i f))) s = (s, ORet (YBody (if has_method b f then closed_answer f else RNoMethod))).
