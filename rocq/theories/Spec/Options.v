(** Options objects and arguments given by JavaScript. *)
From Verif.Model Require Import Prelude Json Crypto Message Pack Unpack.
From Verif.Spec Require Import Codec Small Names World Wire Doc.

(** A member that may be left out. *)
Definition default {A} (rd : value -> A -> Prop) (w : value) (k : string) (d a : A) : Prop :=
  req rd 0 w 0 k a \/ missing w k /\ a = d.
(** One of several names; [{"name": null}] is taken too. *)
Definition unit_read {A} (names : list (string * A)) (w : value) (a : A) : Prop :=
  exists n, In (n, a) names /\ (w = VStr (B n) \/ w = VObj [(B n, VNull)]).
Definition auth_names : list (string * auth_alg) := [("A256cbcHs512Ecdh1puA256kw"%string, AuthA256cbcHs512)].
Definition anon_names : list (string * anon_alg) :=
  [("A256cbcHs512EcdhEsA256kw"%string, AnonA256cbcHs512); ("Xc20pEcdhEsA256kw"%string, AnonXc20p); ("A256gcmEcdhEsA256kw"%string, AnonA256gcm)].
(** Headers are an object; of repeated names the last counts. *)
Definition headers_read (w : value) (h : list (bytes * value)) : Prop :=
  exists l, w = VObj l /\ forall k, match amap_get k h with
    | Some b => exists v, last_of l k v /\ value_read v b
    | None => none l k
    end.

Definition unpack_options_read (w : value) (o : unpack_options) : Prop :=
  default bool_read w "expect_decrypt_by_all_keys" false (uo_all_keys o)
  /\ default bool_read w "unwrap_re_wrapping_forward" false (uo_unwrap o).
Definition pack_options_read (w : value) (o : pack_options) : Prop :=
  default bool_read w "protect_sender" false (po_protect_sender o)
  /\ default bool_read w "forward" true (po_forward o)
  /\ maybe headers_read 0 w 0 "forward_headers" (po_forward_headers o)
  /\ maybe str_read 0 w 0 "messaging_service" (po_messaging_service o)
  /\ default (unit_read auth_names) w "enc_alg_auth" AuthA256cbcHs512 (po_enc_alg_auth o)
  /\ default (unit_read anon_names) w "enc_alg_anon" AnonXc20p (po_enc_alg_anon o).

(** Headers are a map: their order in the record means nothing. *)
Definition same_headers (h h' : list (bytes * value)) : Prop := forall k, amap_get k h = amap_get k h'.
Definition same_pack_options (o o' : pack_options) : Prop :=
  po_protect_sender o = po_protect_sender o' /\ po_forward o = po_forward o'
  /\ match po_forward_headers o, po_forward_headers o' with
     | Some h, Some h' => same_headers h h'
     | None, None => True
     | _, _ => False
     end
  /\ po_messaging_service o = po_messaging_service o' /\ po_enc_alg_auth o = po_enc_alg_auth o'
  /\ po_enc_alg_anon o = po_enc_alg_anon o'.
