(** * C39: Error page is consistent *)
From stdpp Require Import gmap.
From Verif Require Import BuilderSpec WitnessResp.
From Verif Require BuilderMain.

(** The page, its headers and its length, whatever the Builder held before. *)
Theorem C39_error_page : forall (V : Type) (U : uenv V) (fuel : nat), forall s b x c err,
  treaches U fuel s -> s_bds s !! b = Some x -> bd_gen x = None -> 200 <= c <= 999 ->
  let text := list_ascii_of_string (itoa c) ++ [" "%char] ++ list_ascii_of_string (u_statustext U c) ++ ["013"%char; "010"%char] in
  zlen text <= max_slice ->
  exists s' m i o, texec U fuel (TDo (RBuilder b (ErrorPage c (Some err)))) s = (s', ORet YUnit) /\
    changes s s' b x {| bd_gen := None; bd_code := c; bd_hdrs := Some m; bd_body := Some i; bd_err := Some err |}
      {[ "Cache-Control" := ["no-cache"]; "Content-Length" := [itoa (zlen text)]; "Content-Type" := ["text/plain; charset=utf-8"] ]} [o] /\
    serves U fuel s s' i text.
Proof. exact @BuilderMain.error_page. Qed.
Print Assumptions C39_error_page.

Theorem C39_needs_error : forall (V : Type) (U : uenv V) (fuel : nat), forall s b c, texec U fuel (TDo (RBuilder b (ErrorPage c None))) s = (s, OPanic PAssert).
Proof. exact @BuilderMain.error_needs_error. Qed.
Print Assumptions C39_needs_error.

Example C39_example :
  let s := after (web_ok []) 9 (start [] 1) [TDo RNewBuilder; TDo (RBuilder 0 (WithHeader "x-y" "1" false))] in
  treaches (web_ok []) 9 s /\ option_map bd_gen (s_bds s !! 0%nat) = Some None /\
  match texec (web_ok []) 9 (TDo (RBuilder 0 (ErrorPage 404 (Some EOF)))) s with
  | (s', ORet YUnit) => match s_bds s' !! 0%nat with
      | Some x => (bd_code x =? 404) && bool_decide (hview s' (bd_hdrs x) = Some
          {[ "Cache-Control" := ["no-cache"]; "Content-Length" := ["15"]; "Content-Type" := ["text/plain; charset=utf-8"] ]})
      | None => false
      end
  | _ => false
  end = true.
Proof. split; [apply after_reaches|]. by vm_compute. Qed.
