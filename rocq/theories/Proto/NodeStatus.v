(** The node status client of the wasm module and its page:
    /repo/apps/wasm/mvp/src/lib.rs, js_exports.rs, utils.rs, event_emitter.rs
    and /repo/apps/wasm/mvp/web/pages/libp2p.vue.

    Reading JSON ([serde_json::from_slice::<PeerStatusJson>]), reading the
    request ([parse_from_bytes]), building the transport, reading an address and
    dialling are parameters.  Logging is left out.  Writing a message to bytes
    ([write_to_bytes]) does not fail. *)

From Coq Require Import String ZArith List Bool.
From Verif Require Import Lib.Bytes BinProt.Prim Text.Base64 Proto.Pb Proto.PbSpec.
Import ListNotations.
Local Open Scope Z_scope.
Notation length := List.length.

(** ** [str::trim], on the bytes of a string: the characters with the property
    White_Space *)
Definition ws1 (a : Z) : bool := btw 9 a 13 || (a =? 32).
Definition ws2 (a b : Z) : bool := (a =? 0xC2) && ((b =? 0x85) || (b =? 0xA0)).
Definition ws3 (a b c : Z) : bool :=
  ((a =? 0xE1) && (b =? 0x9A) && (c =? 0x80))
  || ((a =? 0xE2) && (b =? 0x80) && (btw 0x80 c 0x8A || (c =? 0xA8) || (c =? 0xA9) || (c =? 0xAF)))
  || ((a =? 0xE2) && (b =? 0x81) && (c =? 0x9F))
  || ((a =? 0xE3) && (b =? 0x80) && (c =? 0x80)).
Fixpoint trim_start (l : list Z) : list Z :=
  match l with
  | [] => []
  | a :: l1 =>
    if ws1 a then trim_start l1
    else match l1 with
    | [] => l
    | b :: l2 =>
      if ws2 a b then trim_start l2
      else match l2 with
      | [] => l
      | c :: l3 => if ws3 a b c then trim_start l3 else l
      end
    end
  end.
(** the same on the reversed bytes *)
Fixpoint trim_rev (l : list Z) : list Z :=
  match l with
  | [] => []
  | a :: l1 =>
    if ws1 a then trim_rev l1
    else match l1 with
    | [] => l
    | b :: l2 =>
      if ws2 b a then trim_rev l2
      else match l2 with
      | [] => l
      | c :: l3 => if ws3 c b a then trim_rev l3 else l
      end
    end
  end.
Definition trim (l : list Z) : list Z := rev (trim_rev (rev (trim_start l))).

(** ** [base64::decode] and [base64::encode] (0.13): the configuration [STANDARD],
    which has [+] and [/] where [URL_SAFE] has [-] and [_] *)
Definition to_url (c : Z) : Z := if c =? 43 then 45 else if c =? 47 then 95 else c.
Definition of_url (c : Z) : Z := if c =? 45 then 43 else if c =? 95 then 47 else c.
Definition std_decode (s : list Z) : option (list Z) :=
  if existsb (fun c => (c =? 45) || (c =? 95)) s then None else b64_decode (map to_url s).
Definition std_encode (bs : list Z) : list Z := map of_url (b64_encode bs).

(** ** [AsyncBufReadExt::read_line] *)

(** What follows the last byte of a stream. *)
Inductive ending : Set := Closed | Failed | Silent.
Inductive line_read : Type := Line (l rest : list Z) | LineErr | LineWait.
Fixpoint until_newline (bs : list Z) : option (list Z * list Z) :=
  match bs with
  | [] => None
  | b :: bs' =>
    if b =? 10 then Some ([b], bs')
    else match until_newline bs' with Some (l, r) => Some (b :: l, r) | None => None end
  end.
(** At the end the rest is a line, and then the empty line for ever. *)
Definition read_line (bs : list Z) (e : ending) : line_read :=
  match until_newline bs with
  | Some (l, r) => if utf8_valid l then Line l r else LineErr
  | None =>
    match e with
    | Closed => if utf8_valid bs then Line bs [] else LineErr
    | Failed => LineErr
    | Silent => LineWait
    end
  end.

(** ** lib.rs 137-192: [read_response] *)
Section ReadResponse.
  (** [serde_json::from_slice::<PeerStatusJson>] *)
  Variable parse_status : list Z -> option status.
  (** whether an emitter is set, event_emitter.rs 15-17 *)
  Variable emitter : bool.

  (** 152-181: what is emitted for a line *)
  Definition on_line (line : list Z) : list (list Z) :=
    let t := trim line in
    match t with
    | [] => []
    | _ =>
      match std_decode t with
      | Some bytes =>
        match parse_status bytes with
        | Some s => if emitter then [pb_status s] else []
        | None => []
        end
      | None => []
      end
    end.
  Inductive outcome : Set := Returned | Waiting.
  (** 149-191: what has been emitted after [fuel] rounds, and the outcome if
      there is one *)
  Fixpoint read_response (fuel : nat) (bs : list Z) (e : ending) : list (list Z) * option outcome :=
    match fuel with
    | O => ([], None)
    | S fuel' =>
      match read_line bs e with
      | Line l rest => let (out, r) := read_response fuel' rest e in (on_line l ++ out, r)
      | LineErr => ([], Some Returned)
      | LineWait => ([], Some Waiting)
      end
    end.
End ReadResponse.

(** ** js_exports.rs 57-64, lib.rs 29-67 *)
Inductive promise : Type := Never | Resolved (bytes : list Z) | Rejected | Panicked.
Section Connect.
  Variable parse_request : list Z -> option (list Z).
  Variable build_ok : bool.
  Variables address_ok dial_ok : list Z -> bool.
  Definition connect (request : list Z) : promise :=
    match parse_request request with
    | None => Rejected
    | Some address =>
      if build_ok then
        if address_ok address then
          if dial_ok address then Never else Resolved (pb_response true [])
        else Panicked
      else Rejected
    end.
End Connect.

(** ** libp2p.vue: the table of peers *)
Inductive jsv : Set := JSUndefined | JSBool (b : bool) | JSText (u : list Z) | JSLong (low high : Z).
Definition js_opt {A : Type} (f : A -> jsv) (o : option A) : jsv := match o with Some a => f a | None => JSUndefined end.
(** [ps.name]; pb/messages.ts 3-10 *)
Definition prop (p : peer_status) (name : string) : jsv :=
  if String.eqb name "connected" then js_opt JSBool (connected p)
  else if String.eqb name "peer_id" then js_opt JSText (peer_id p)
  else if String.eqb name "sync_status" then js_opt JSText (sync_status p)
  else if String.eqb name "protocol_state_hash" then js_opt JSText (protocol_state_hash p)
  else if String.eqb name "git_commit" then js_opt JSText (git_commit p)
  else if String.eqb name "uptime_minutes" then js_opt (fun x => JSLong (fst x) (snd x)) (uptime_minutes p)
  else JSUndefined.
(** a value as a key of an object *)
Definition key_of (v : jsv) : list Z :=
  match v with
  | JSUndefined => str_bytes "undefined"
  | JSBool b => str_bytes (if b then "true" else "false")
  | JSText u => u
  | JSLong _ _ => str_bytes "[object Object]"
  end.
Definition same_key (a b : list Z) : bool := if list_eq_dec Z.eq_dec a b then true else false.
(** [this.peers[k] = p]; the order of keys that are numbers is not modelled *)
Fixpoint put_peer (k : list Z) (p : peer_status) (peers : list (list Z * peer_status)) : list (list Z * peer_status) :=
  match peers with
  | [] => [(k, p)]
  | (k', p') :: rest => if same_key k' k then (k, p) :: rest else (k', p') :: put_peer k p rest
  end.
(** 84-96 *)
Definition on_update (peers : list (list Z * peer_status)) (ps : peer_status) : list (list Z * peer_status) :=
  put_peer (key_of (prop ps "peerId")) ps peers.
Definition show_peers (updates : list peer_status) : list (list Z * peer_status) := fold_left on_update updates [].
(** 39-47: the cells of a row *)
Definition row (x : list Z * peer_status) : list Z * list jsv :=
  (fst x, map (prop (snd x)) ["connected"; "syncStatus"; "protocolStateHash"; "gitCommit"; "uptimeMinutes"]%string).
(** 127-132 *)
Definition connected_count (peers : list (list Z * peer_status)) : nat :=
  length (filter (fun x => match prop (snd x) "connected" with JSBool b => b | _ => false end) peers).
