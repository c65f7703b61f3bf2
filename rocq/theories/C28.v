(** * C28: at most one header reaches the client, and Status reports it *)
From stdpp Require Import gmap.
From Verif Require Import RespSpec WitnessResp.
From Verif Require WriterMain.

(** In every reachable state, for every Writer: what it has sent downstream is some
    pushes, then nothing if Status() is 0, and otherwise one header, with the status
    that Status() reports, before everything else and never again. *)
Theorem C28_once : forall (V : Type) (U : uenv V) (fuel : nat), forall s k st,
  treaches U fuel s -> reports U fuel s k WStatus (YInt st) ->
  exists pushes rest, sent_by k (wlog s) = pushes ++ rest /\ Forall is_push pushes /\
    ((rest = [] /\ st = 0) \/
     exists u r rest', rest = UHeader (Some k) u st r :: rest' /\ 100 <= st <= 999 /\ Forall (fun e => ~ is_header e) rest').
Proof. exact @WriterMain.header_once. Qed.
Print Assumptions C28_once.

(** Whatever is called next, on whatever object, Status() does not change any more. *)
Theorem C28_stays : forall (V : Type) (U : uenv V) (fuel : nat), forall s k st c,
  treaches U fuel s -> reports U fuel s k WStatus (YInt st) -> st <> 0 ->
  reports U fuel (texec U fuel c s).1 k WStatus (YInt st).
Proof. exact @WriterMain.status_stays. Qed.
Print Assumptions C28_stays.

(** The first WriteHeader reaches the client. *)
Theorem C28_first : forall (V : Type) (U : uenv V) (fuel : nat), forall s k c,
  reports U fuel s k WStatus (YInt 0) -> 100 <= c <= 999 ->
  exists s' u r, reports U fuel s k WUnwrap (YHandle (Some u)) /\
    texec U fuel (TDo (RWriter k (WWriteHeader c))) s = (s', match r with Some e => OPanic e | None => ORet YUnit end) /\
    wlog s' = wlog s ++ [UAsked k c; UHeader (Some k) u c r] /\ reports U fuel s' k WStatus (YInt c).
Proof. exact @WriterMain.first_header. Qed.
Print Assumptions C28_first.

(** A second WriteHeader raises, and nothing reaches the client. *)
Theorem C28_second : forall (V : Type) (U : uenv V) (fuel : nat), forall s k st c,
  reports U fuel s k WStatus (YInt st) -> st <> 0 -> 100 <= c <= 999 ->
  exists s', texec U fuel (TDo (RWriter k (WWriteHeader c))) s = (s', OPanic PAssert) /\
    wlog s' = wlog s ++ [UAsked k c] /\ reports U fuel s' k WSawError (YBool true).
Proof. exact @WriterMain.second_header_raises. Qed.
Print Assumptions C28_second.

(** MaybeWriteHeader after the first header changes nothing at all. *)
Theorem C28_maybe : forall (V : Type) (U : uenv V) (fuel : nat), forall s k st c,
  reports U fuel s k WStatus (YInt st) -> st <> 0 -> 100 <= c <= 999 ->
  texec U fuel (TDo (RWriter k (WMaybeWriteHeader c))) s = (s, ORet YUnit).
Proof. exact @WriterMain.maybe_noop. Qed.
Print Assumptions C28_maybe.

(** A Writer over a ResponseWriter; a push, a write, a failed second header and more. *)
Definition demo_s : state (list nat) :=
  after (web_ok []) 9 (start [] 1)
    [TDo (RNewWriter (Some 1%nat) false); TDo (RWriter 2 (WPush "/x.css")); TDo (RWriter 2 (WWriteHeader 404));
     TDo (RWriter 2 (WWrite (bs "abc"))); TDo (RWriter 2 (WWriteHeader 500)); TDo (RWriter 2 WFlush)].
Example C28_example :
  treaches (web_ok []) 9 demo_s /\ reports (web_ok []) 9 demo_s 2 WStatus (YInt 404) /\
  sent_by 2 (wlog demo_s) =
    [UPush (Some 2%nat) 0 "/x.css" (inl None); UHeader (Some 2%nat) 0 404 None; UWrite (Some 2%nat) 0 (bs "abc") (inl (3, None)); UFlush (Some 2%nat) 0 None].
Proof. split; [apply after_reaches|]. vm_compute. done. Qed.
