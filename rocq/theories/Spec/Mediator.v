(** What a mediator gets to see. *)
From Verif.Model Require Import Prelude Utf8 Base64 Json Serde DidDoc Crypto Keys Effects Jws Jwe Message FromPrior Pack Routing Unpack.
From Verif.Spec Require Import Small Codec Events World Text Packing.

(** The headers of a forward message, the last of those of one name. *)
Definition kept_headers (headers : option (list (bytes * value))) : list (bytes * value) :=
  fold_left (fun l kv => amap_insert (fst kv) (snd kv) l) (match headers with Some l => l | None => [] end) [].

Section Mediator.
Context (C : crypto) (headers : option (list (bytes * value))).
(** [pt] is a forward message about [msg] for [next]; its identifier was drawn in [tr]. *)
Definition forwards (msg next : bytes) (tr : list event) (pt : bytes) : Prop :=
  exists v id, from_json (to_value (fparse C) max_depth) msg = Ok v /\ tr = [Ev (ORandom RUuid) id]
    /\ pt = forward_text id next (kept_headers headers) v.
(** [pt] is what is encrypted for the first of the routing keys when [msg] is sent to [to]
    along them. *)
Definition for_first (alg : anon_alg) (msg to : bytes) (rks : list bytes) (tr : list event) (pt : bytes) : Prop :=
  match rks with
  | [] => False
  | [_] => forwards msg to tr pt
  | _ :: next :: rest => exists tr1 tr2 inner, tr = tr1 ++ tr2 /\ exec (wrap_in_forward C msg headers to (next :: rest) alg) tr1 (Ok inner)
      /\ forwards inner next tr2 pt
  end.
End Mediator.
