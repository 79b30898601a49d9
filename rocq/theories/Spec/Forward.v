(** Messages on their way through mediators. *)
From Verif.Model Require Import Prelude Utf8 Base64 Json Serde DidDoc Crypto Keys Effects Jws Jwe Message FromPrior Pack Routing Unpack.
From Verif.Spec Require Import Small Codec Events World Packing.

Section Forward.
Context (C : crypto) (pair : kalg -> key C -> key C -> Prop) (dir : bytes -> option diddoc).

(** Headers that a forward message can carry. *)
Definition headers_fit (headers : option (list (bytes * value))) : Prop :=
  forall l, headers = Some l ->
    (forall k v, In (k, v) l -> text_ok k /\ ~ In k standard_headers /\ json_value (fparse C) 126 v)
    /\ ~ incl jwe_names (map fst l) /\ ~ incl jws_names (map fst l).

(** Whoever holds the secret of one of the keys meant by the routing key [rk], and not
    one of [next], reads in [text] the forward message [m]: to [next], about [v]. *)
Definition hop (alg : anon_alg) (rk text next : bytes) (v : value) : Prop :=
  exists did doc ka kids rs m, did_part rk did /\ dir did = Some doc /\ anon_keys C rk doc ka kids rs
    /\ msg_type m = B "https://didcomm.org/routing/2.0/forward"
    /\ (exists body, msg_body m = VObj body /\ amap_get (B "next") body = Some (VStr next))
    /\ (exists a l j, msg_attachments m = Some (a :: l) /\ att_data a = AJson v j)
    /\ forall own fuel o tr x, secrets_match C pair dir own -> holds_one own kids -> kept dir own o m ->
         exec (unpack C (S fuel) text o) tr x -> Forall (answers dir own) tr ->
         x = Some (Ok (m, metadata (Some (kids, alg)) None None None)).

(** [travels alg rks to text v]: sent as [text] to the first of the routing keys, the
    JSON found inside sent by each to the next one, it reaches [to] as [v]. *)
Inductive travels (alg : anon_alg) : list bytes -> bytes -> bytes -> value -> Prop :=
| travels_last rk to text v : hop alg rk text to v -> travels alg [rk] to text v
| travels_on rk next rks to text v' v : hop alg rk text next v' -> travels alg (next :: rks) to (print v') v ->
    travels alg (rk :: next :: rks) to text v.

(** Two texts that cannot be told apart by unpacking them. *)
Definition same_unpack (t t' : bytes) : Prop :=
  forall fuel o tr x, exec (unpack C fuel t o) tr x <-> exec (unpack C fuel t' o) tr x.
End Forward.
