(** src/protocols/routing: the Forward protocol, and pack_encrypted which uses it. *)
From Verif.Model Require Import Prelude Utf8 Json Serde Base64 DidDoc Crypto Keys Effects Jws Jwe Message FromPrior Pack.

(** src/protocols/routing/mod.rs:19-21 *)
Definition forward_type : bytes := B "https://didcomm.org/routing/2.0/forward".
(** src/protocols/routing/mod.rs:21 *)
Definition didcomm_v2 : bytes := B "didcomm/v2".

(** The accept test of mod.rs:48-60 and 72-81 *)
Definition accepts_v2 (s : messaging_service) : bool :=
  match ms_accept s with
  | Some [] => true
  | Some l => bmem didcomm_v2 l
  | None => true
  end.

(** [find_map] of mod.rs:68-83 *)
Fixpoint first_service (l : list service) : option (bytes * messaging_service) :=
  match l with
  | [] => None
  | s :: l' =>
      match svc_kind s with
      | DIDCommMessaging ms => if accepts_v2 ms then Some (svc_id s, ms) else first_service l'
      | OtherService _ => first_service l'
      end
  end.

(** src/protocols/routing/mod.rs:23-85: find_did_comm_service *)
Definition find_service (did : bytes) (service_id : option bytes)
  : prog (res (option (bytes * messaging_service))) :=
  let! doc := resolve did in
  let! doc := Ret (ok_or DIDNotResolved doc) in
  match service_id with
  | Some sid =>
      let! s := Ret (ok_or IllegalArgument (find_first (fun s => beq (svc_id s) sid) (doc_service doc))) in
      match svc_kind s with
      | DIDCommMessaging ms =>
          if accepts_v2 ms then Ret (Ok (Some (svc_id s, ms))) else Ret (Err IllegalArgument)
      | OtherService _ => Ret (Err IllegalArgument)
      end
  | None => Ret (Ok (first_service (doc_service doc)))
  end.

(** src/protocols/routing/mod.rs:105-127: the while loop.  [services] is the list
    built so far, whose first element is the current service; the loop runs at
    most twice because it refuses once [services] has two elements, so [fuel] 2
    is enough (out of fuel is the same refusal). *)
Fixpoint chain_loop (fuel : nat) (services : list (bytes * messaging_service)) (cur : messaging_service)
  : prog (res (list (bytes * messaging_service))) :=
  if is_did (ms_uri cur) then
    if Nat.ltb 1 (List.length services) then Ret (Err InvalidState)
    else match fuel with
         | O => Ret (Err InvalidState)
         | S f =>
             let! s := find_service (ms_uri cur) None in
             let! s := Ret (ok_or InvalidState s) in
             chain_loop f (s :: services) (snd s)
         end
  else Ret (Ok services).

(** src/protocols/routing/mod.rs:87-130: resolve_did_comm_services_chain *)
Definition services_chain (to : bytes) (service_id : option bytes)
  : prog (res (list (bytes * messaging_service))) :=
  let (to_did, _) := did_or_url to in
  let! s := find_service to_did service_id in
  match s with
  | None => Ret (Ok [])
  | Some s => chain_loop 2 [s] (snd s)
  end.

Section Routing.
Context (C : crypto).

(** src/protocols/routing/mod.rs:136-165: build_forward_message.  [headers] is
    iterated in list order.  The identifier is drawn after the forwarded message
    has been deserialised. *)
Definition forward_message (id next : bytes) (headers : option (list (bytes * value))) (fwd : value)
  : message :=
  mb_attachment (ab_json fwd)
    (fold_left (fun m kv => mb_header (fst kv) (snd kv) m)
               (match headers with Some l => l | None => [] end)
               (mb_new id forward_type (VObj [(B "next", VStr next)]))).
(** src/protocols/routing/mod.rs:132-165: build_forward_message *)
Definition build_forward (fwd : bytes) (next : bytes) (headers : option (list (bytes * value)))
  : prog (res bytes) :=
  let! v := Ret (kind Malformed (from_json (to_value (fparse C) max_depth) fwd)) in
  let! id := random RUuid in
  Ret (Ok (message_text (forward_message id next headers v))).

(** src/protocols/routing/forward.rs:6-12 (the borrowed message is left out) *)
Record parsed_forward := mkPF { pf_next : bytes; pf_forwarded : value }.

(** src/protocols/routing/mod.rs:175-216: try_parse_forward *)
Definition try_parse_forward (m : message) : option parsed_forward :=
  if negb (beq (msg_type m) forward_type) then None
  else match msg_body m with
       | VObj body =>
           match amap_get (B "next") body with
           | Some (VStr next) =>
               match msg_attachments m with
               | Some (a :: _) =>
                   match att_data a with
                   | AJson v _ => Some (mkPF next v)
                   | _ => None
                   end
               | _ => None
               end
           | _ => None
           end
       | _ => None
       end.

(** The for loop of mod.rs:259-264, over (to, next) pairs. *)
Fixpoint wrap_loop (msg : bytes) (headers : option (list (bytes * value))) (hops : list (bytes * bytes))
  (alg : anon_alg) : prog (res bytes) :=
  match hops with
  | [] => Ret (Ok msg)
  | (to, next) :: hops' =>
      let! m := build_forward msg next headers in
      let! (m, _) := anoncrypt C to m alg in
      wrap_loop m headers hops' alg
  end.

(** src/protocols/routing/mod.rs:240-267: wrap_in_forward.  [nexts.remove(0)]
    panics when there are no routing keys. *)
Definition wrap_in_forward (msg : bytes) (headers : option (list (bytes * value))) (to : bytes)
  (routing_keys : list bytes) (alg : anon_alg) : prog (res bytes) :=
  match routing_keys with
  | [] => Ret Panic
  | _ :: rest =>
      let nexts := rest ++ [to] in
      wrap_loop msg headers (combine (rev routing_keys) (rev nexts)) alg
  end.

(** src/protocols/routing/mod.rs:269-314: wrap_in_forward_if_needed *)
Definition wrap_if_needed (msg to : bytes) (o : pack_options)
  : prog (res (option (bytes * service_metadata))) :=
  if negb (po_forward o) then Ret (Ok None)
  else
  let! chain := services_chain to (po_messaging_service o) in
  match chain with
  | [] => Ret (Ok None)
  | fst_svc :: rest =>
      let last_svc := last chain fst_svc in
      let routing_keys := map (fun s => ms_uri (snd s)) rest ++ ms_routing_keys (snd last_svc) in
      match routing_keys with
      | [] => Ret (Ok None)
      | _ =>
          let! f := wrap_in_forward msg (po_forward_headers o) to routing_keys (po_enc_alg_anon o) in
          Ret (Ok (Some (f, mkSM (fst last_svc) (ms_uri (snd fst_svc)))))
      end
  end.

(** src/message/pack_encrypted/mod.rs:77-147: pack_encrypted *)
Definition pack_encrypted (m : message) (to : bytes) (from sign_by : option bytes) (o : pack_options)
  : prog (res (bytes * pack_metadata)) :=
  let! _ := Ret (validate_pack_encrypted m to from sign_by) in
  let! (msg, sign_by_kid) :=
    match sign_by with
    | Some s => let! (msg, kid) := pack_signed C m s in Ret (Ok (msg, Some kid))
    | None => let! msg := pack_plaintext C m in Ret (Ok (msg, None))
    end in
  let! (msg, from_kid, to_kids) :=
    match from with
    | Some f =>
        let! (msg, fk, tk) := authcrypt C to f msg (po_enc_alg_auth o) (po_enc_alg_anon o)
                                        (po_protect_sender o) in
        Ret (Ok (msg, Some fk, tk))
    | None =>
        let! (msg, tk) := anoncrypt C to msg (po_enc_alg_anon o) in
        Ret (Ok (msg, None, tk))
    end in
  let! w := wrap_if_needed msg to o in
  match w with
  | Some (fwd, sm) => Ret (Ok (fwd, mkPM (Some sm) from_kid sign_by_kid to_kids))
  | None => Ret (Ok (msg, mkPM None from_kid sign_by_kid to_kids))
  end.

End Routing.
