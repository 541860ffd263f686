(** Protocol buffers between the wasm module and its page:
    /repo/apps/wasm/mvp/web/pb/messages.ts, requests.ts and responses.ts.  The
    three files are generated; they differ in the tables of fields and share
    the helpers word for word.  Lines are those of messages.ts unless another
    file is named.

    Numbers that go through bitwise operators are the 32-bit integers of
    JavaScript.  A string is the list of its UTF-16 code units.  A buffer for
    reading is its bytes with an offset; [limit] is the number of bytes
    ([wrapByteBuffer], 198-200).  A buffer for writing is the list of the bytes
    written: [grow] (219-234) only makes room, and [bbStack] stays empty since
    [pushByteBuffer] (194-196) is never called.  An exception is [Err tt]. *)

From Coq Require Import ZArith List Bool.
From Verif Require Import Lib.Res Lib.Bytes.
Import ListNotations.
Local Open Scope Z_scope.

(** ** Bitwise operators of JavaScript *)
Definition i32 (z : Z) : Z := wraps 32 z.
Definition jand (a b : Z) : Z := Z.land (i32 a) (i32 b).
Definition jor (a b : Z) : Z := Z.lor (i32 a) (i32 b).
(** [<<], [>>] and [>>>] *)
Definition shl (a n : Z) : Z := i32 (Z.shiftl (i32 a) n).
Definition shr (a n : Z) : Z := Z.shiftr (i32 a) n.
Definition ushr (a n : Z) : Z := Z.shiftr (wrapu 32 a) n.

(** ** Reading *)

(** [bytes[o]].  Outside of the array this is [undefined]; every use of it then
    gives what it gives for 0. *)
Definition byte_at (bs : list Z) (o : Z) : Z := if o <? 0 then 0 else nth (Z.to_nat o) bs 0.
Definition size (bs : list Z) : Z := Z.of_nat (List.length bs).

(** 236-243, 208-213: the new offset *)
Definition advance (bs : list Z) (o count : Z) : res unit Z :=
  if size bs <? o + count then Err tt else Ok (o + count).
(** 386-388 *)
Definition readByte (bs : list Z) (o : Z) : res unit (Z * Z) :=
  let* o' := advance bs o 1 in Ok (byte_at bs o, o').

(** 484-494, on the bytes from the offset on *)
Fixpoint varint32_loop (l : list Z) (c value o : Z) : res unit (Z * Z) :=
  match l with
  | [] => Err tt
  | b :: l' =>
    let value' := if c <? 32 then jor value (shl (jand b 0x7F) c) else value in
    if negb (jand b 0x80 =? 0) then varint32_loop l' (c + 7) value' (o + 1) else Ok (value', o + 1)
  end.
(** An offset before the array is where the one byte read is [undefined]. *)
Definition readVarint32 (bs : list Z) (o : Z) : res unit (Z * Z) :=
  if o <? 0 then Ok (0, o + 1) else varint32_loop (skipn (Z.to_nat o) bs) 0 0 o.

(** 505-538: the groups of seven bits, at most ten *)
Fixpoint groups (n : nat) (bs : list Z) (o : Z) : res unit (list Z * Z) :=
  match n with
  | O => Ok ([], o)
  | S n' =>
    let* (b, o1) := readByte bs o in
    if negb (jand b 0x80 =? 0) then
      let* (g, o2) := groups n' bs o1 in Ok (jand b 0x7F :: g, o2)
    else Ok ([jand b 0x7F], o1)
  end.
(** four groups, 0 for those that are missing: [part0 |= (b & 0x7F) << 7], .. *)
Definition part (g : list Z) (i : nat) : Z :=
  jor (jor (jor (nth i g 0) (shl (nth (i + 1) g 0) 7)) (shl (nth (i + 2) g 0) 14)) (shl (nth (i + 3) g 0) 21).
(** [low] and [high] of a [Long] *)
Definition readVarint64 (bs : list Z) (o : Z) : res unit (Z * Z * Z) :=
  let* (g, o') := groups 10 bs o in
  let part0 := part g 0 in
  let part1 := part g 4 in
  let part2 := jor (nth 8 g 0) (shl (nth 9 g 0) 7) in
  Ok (jor part0 (shl part1 28), jor (ushr part1 4) (shl part2 24), o').

(** 255-330, on the bytes of the string *)
Definition INVALID : Z := 0xFFFD.
Fixpoint read_units (l : list Z) : list Z :=
  match l with
  | [] => []
  | c1 :: r1 =>
    if jand c1 0x80 =? 0 then c1 :: read_units r1
    else if jand c1 0xE0 =? 0xC0 then
      match r1 with
      | [] => INVALID :: read_units r1
      | c2 :: r2 =>
        if negb (jand c2 0xC0 =? 0x80) then INVALID :: read_units r1
        else
          let c := jor (shl (jand c1 0x1F) 6) (jand c2 0x3F) in
          if c <? 0x80 then INVALID :: read_units r1 else c :: read_units r2
      end
    else if jand c1 0xF0 =? 0xE0 then
      match r1 with
      | c2 :: c3 :: r3 =>
        if negb (jand (jor c2 (shl c3 8)) 0xC0C0 =? 0x8080) then INVALID :: read_units r1
        else
          let c := jor (jor (shl (jand c1 0x0F) 12) (shl (jand c2 0x3F) 6)) (jand c3 0x3F) in
          if (c <? 0x0800) || ((0xD800 <=? c) && (c <=? 0xDFFF)) then INVALID :: read_units r1
          else c :: read_units r3
      | _ => INVALID :: read_units r1
      end
    else if jand c1 0xF8 =? 0xF0 then
      match r1 with
      | c2 :: c3 :: c4 :: r4 =>
        if negb (jand (jor (jor c2 (shl c3 8)) (shl c4 16)) 0xC0C0C0 =? 0x808080) then INVALID :: read_units r1
        else
          let c := jor (jor (jor (shl (jand c1 0x07) 0x12) (shl (jand c2 0x3F) 0x0C)) (shl (jand c3 0x3F) 0x06)) (jand c4 0x3F) in
          if (c <? 0x10000) || (0x10FFFF <? c) then INVALID :: read_units r1
          else shr (c - 0x10000) 10 + 0xD800 :: jand (c - 0x10000) 0x3FF + 0xDC00 :: read_units r4
      | _ => INVALID :: read_units r1
      end
    else INVALID :: read_units r1
  end.
Definition slice (bs : list Z) (o count : Z) : list Z :=
  map (fun i => byte_at bs (o + Z.of_nat i)) (seq 0 (Z.to_nat count)).
(** A negative count moves the offset back and gives the empty string. *)
Definition readString (bs : list Z) (o count : Z) : res unit (list Z * Z) :=
  let* o' := advance bs o count in Ok (read_units (slice bs o count), o').

(** 141: [while (readByte(bb) & 0x80) { }] *)
Fixpoint skip_varint_loop (l : list Z) (o : Z) : res unit Z :=
  match l with
  | [] => Err tt
  | b :: l' => if negb (jand b 0x80 =? 0) then skip_varint_loop l' (o + 1) else Ok (o + 1)
  end.
(** 139-147 *)
Definition skipUnknownField (bs : list Z) (o type : Z) : res unit Z :=
  if type =? 0 then (if o <? 0 then Ok (o + 1) else skip_varint_loop (skipn (Z.to_nat o) bs) o)
  else if type =? 2 then let* (n, o') := readVarint32 bs o in advance bs o' n
  else if type =? 5 then advance bs o 4
  else if type =? 1 then advance bs o 8
  else Err tt.

(** The kinds of fields that occur. *)
Inductive kind : Set := KBool | KText | KLong.
Inductive fval : Set := FBool (b : bool) | FText (units : list Z) | FLong (low high : Z).
(** 77-110: one field *)
Definition read_field (k : kind) (bs : list Z) (o : Z) : res unit (fval * Z) :=
  match k with
  | KBool => let* (b, o') := readByte bs o in Ok (FBool (negb (b =? 0)), o')
  | KText => let* (n, o1) := readVarint32 bs o in let* (s, o2) := readString bs o1 n in Ok (FText s, o2)
  | KLong => let* (lo, hi, o') := readVarint64 bs o in Ok (FLong lo hi, o')
  end.

(** A message is what has been assigned to its properties, the last first. *)
Definition msg := list (Z * fval).
Fixpoint find {A : Type} (n : Z) (l : list (Z * A)) : option A :=
  match l with
  | [] => None
  | (k, v) :: l' => if k =? n then Some v else find n l'
  end.
(** The loop need not end; [None] is a run of more than [fuel] rounds.
    66-118, requests.ts 27-50, responses.ts 34-62 *)
Fixpoint decode_loop (table : list (Z * kind)) (bs : list Z) (fuel : nat) (o : Z) (m : msg) : option (res unit msg) :=
  match fuel with
  | O => None
  | S fuel' =>
    if size bs <=? o then Some (Ok m)
    else
      match readVarint32 bs o with
      | Ok (tag, o1) =>
        if ushr tag 3 =? 0 then Some (Ok m)
        else
          match find (ushr tag 3) table with
          | Some k =>
            match read_field k bs o1 with
            | Ok (v, o2) => decode_loop table bs fuel' o2 ((ushr tag 3, v) :: m)
            | _ => Some (Err tt)
            end
          | None =>
            match skipUnknownField bs o1 (jand tag 7) with
            | Ok o2 => decode_loop table bs fuel' o2 m
            | _ => Some (Err tt)
            end
          end
      | _ => Some (Err tt)
      end
  end.
Definition decode (table : list (Z * kind)) (bs : list Z) (fuel : nat) : option (res unit msg) :=
  decode_loop table bs fuel 0 [].

(** 3-10, 76-110; requests.ts 3-5; responses.ts 3-6 *)
Definition PeerStatus : list (Z * kind) :=
  [(1, KBool); (2, KText); (3, KText); (4, KText); (5, KText); (6, KLong)].
Definition ConnectRequest : list (Z * kind) := [(1, KText)].
Definition CommonResponse : list (Z * kind) := [(1, KBool); (2, KText)].

(** ** Writing *)

(** [bytes[offset] = value] *)
Definition writeByte (v : Z) : list Z := [wrapu 8 v].
(** 496-503.  A 32-bit number has at most five groups. *)
Fixpoint writeVarint32_loop (n : nat) (value : Z) : list Z :=
  match n with
  | O => []
  | S n' =>
    if 0x80 <=? value then writeByte (jor (jand value 0x7f) 0x80) ++ writeVarint32_loop n' (ushr value 7)
    else writeByte value
  end.
Definition writeVarint32 (value : Z) : list Z := writeVarint32_loop 5 (ushr value 0).

(** 338-342, 351-355: the numbers [c] *)
Fixpoint points (u : list Z) : list Z :=
  match u with
  | [] => []
  | c :: r =>
    if (0xD800 <=? c) && (c <=? 0xDBFF) then
      match r with
      | [] => [c]
      | d :: r' => shl c 10 + d - 0x35FDC00 :: points r'
      end
    else c :: points r
  end.
(** 343 *)
Definition point_size (c : Z) : Z := if c <? 0x80 then 1 else if c <? 0x800 then 2 else if c <? 0x10000 then 3 else 4.
(** 356-371 *)
Definition point_bytes (c : Z) : list Z :=
  if c <? 0x80 then writeByte c
  else
    (if c <? 0x800 then writeByte (jor (jand (shr c 6) 0x1F) 0xC0)
     else
       (if c <? 0x10000 then writeByte (jor (jand (shr c 12) 0x0F) 0xE0)
        else writeByte (jor (jand (shr c 18) 0x07) 0xF0) ++ writeByte (jor (jand (shr c 12) 0x3F) 0x80))
       ++ writeByte (jor (jand (shr c 6) 0x3F) 0x80))
    ++ writeByte (jor (jand c 0x3F) 0x80).
(** 332-373 *)
Definition writeString (u : list Z) : list Z :=
  writeVarint32 (fold_right (fun c n => point_size c + n) 0 (points u)) ++ flat_map point_bytes (points u).

(** 540-572 *)
Definition varint64_size (part0 part1 part2 : Z) : Z :=
  if part2 =? 0 then
    if part1 =? 0 then
      if part0 <? 2 ^ 14 then if part0 <? 2 ^ 7 then 1 else 2 else if part0 <? 2 ^ 21 then 3 else 4
    else if part1 <? 2 ^ 14 then if part1 <? 2 ^ 7 then 5 else 6 else if part1 <? 2 ^ 21 then 7 else 8
  else if part2 <? 2 ^ 7 then 9 else 10.
Definition writeVarint64 (low high : Z) : list Z :=
  let part0 := ushr low 0 in
  let part1 := ushr (jor (ushr low 28) (shl high 4)) 0 in
  let part2 := ushr high 24 in
  let n := varint64_size part0 part1 part2 in
  let at_ (k x : Z) := writeByte (if n =? k then jand x 0x7F else jor x 0x80) in
  firstn (Z.to_nat n)
    (at_ 1 part0 ++ at_ 2 (ushr part0 7) ++ at_ 3 (ushr part0 14) ++ at_ 4 (ushr part0 21)
     ++ at_ 5 part1 ++ at_ 6 (ushr part1 7) ++ at_ 7 (ushr part1 14) ++ at_ 8 (ushr part1 21)
     ++ at_ 9 part2 ++ writeByte (jand (ushr part2 7) 1)).

(** 18-60: a property that is [undefined] is not written *)
Definition write_opt {A : Type} (tag : Z) (f : A -> list Z) (v : option A) : list Z :=
  match v with Some a => writeVarint32 tag ++ f a | None => [] end.
Record peer_status : Set := {
  connected : option bool; peer_id : option (list Z); sync_status : option (list Z);
  protocol_state_hash : option (list Z); git_commit : option (list Z); uptime_minutes : option (Z * Z) }.
Definition encodePeerStatus (m : peer_status) : list Z :=
  write_opt 8 (fun b : bool => writeByte (if b then 1 else 0)) (connected m)
  ++ write_opt 18 writeString (peer_id m)
  ++ write_opt 26 writeString (sync_status m)
  ++ write_opt 34 writeString (protocol_state_hash m)
  ++ write_opt 42 writeString (git_commit m)
  ++ write_opt 48 (fun p => writeVarint64 (fst p) (snd p)) (uptime_minutes m).
(** requests.ts 13-20; responses.ts 14-28 *)
Definition encodeConnectRequest (address : option (list Z)) : list Z := write_opt 10 writeString address.
Definition encodeCommonResponse (success : option bool) (error_message : option (list Z)) : list Z :=
  write_opt 8 (fun b : bool => writeByte (if b then 1 else 0)) success ++ write_opt 18 writeString error_message.

(** What the page sees in a decoded [PeerStatus]. *)
Definition peer_status_of (m : msg) : peer_status :=
  let flag n := match find n m with Some (FBool b) => Some b | _ => None end in
  let text n := match find n m with Some (FText s) => Some s | _ => None end in
  {| connected := flag 1; peer_id := text 2; sync_status := text 3; protocol_state_hash := text 4;
     git_commit := text 5;
     uptime_minutes := match find 6 m with Some (FLong lo hi) => Some (lo, hi) | _ => None end |}.
