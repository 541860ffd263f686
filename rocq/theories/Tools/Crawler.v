(** The blocks crawler /repo/apps/tools/blocks-crawler/src/blocks.rs and main.rs.

    A folder is a map from file names to the JSON values written in them (the
    printed text is not modelled).  Deleting a file does not fail, and writing
    fails only for names that are no file names; a full disk is left out.  HTTP
    is a relation between an address and a reply; a reply that never comes is
    an address without a reply.  [serde_json::from_str] is a parameter.
    Logging, the command line parser and [create_dir_all] are left out. *)

From Coq Require Import String ZArith List Bool.
From Verif Require Import Lib.Res Lib.Bytes Lib.Decimal BinProt.Codec Json.Json Json.JsonTypes Convert.Conv Convert.BlockConv.
Import ListNotations.
Local Open Scope Z_scope.
Notation length := List.length.

(** blocks.rs 19-31 *)
Record block_info : Set := { block_height : Z; state_hash : list Z }.
Definition shown (b : block_info) : list Z := dec (block_height b) ++ str_bytes "-" ++ state_hash b.

(** 73-92: the text of the query *)
Definition blocks_query (n : list Z) : list Z :=
  str_bytes "query Fetch {
            blocks(limit: " ++ n ++ str_bytes ", sortBy: RECEIVEDTIME_DESC) {
                blockHeight
                stateHash
            }
        }".
(** 10-25: the derived readers on a JSON value; a struct is an object or an
    array of its fields *)
Fixpoint get (k : string) (m : list (list Z * json)) : option json :=
  match m with [] => None | (k', j) :: m' => if key_eqb k' (str_bytes k) then Some j else get k m' end.
Definition one_field (k : string) (j : json) : option json :=
  match j with JObj m => get k m | JArr [x] => Some x | _ => None end.
Definition read_info (j : json) : option block_info :=
  match match j with JObj m => (get "blockHeight" m, get "stateHash" m) | JArr [a; b] => (Some a, Some b) | _ => (None, None) end with
  | (Some (JNum h), Some (JStr s)) => if (0 <=? h) && (h <? 2 ^ 64) then Some {| block_height := h; state_hash := s |} else None
  | _ => None
  end.
Fixpoint all_some {A : Type} (l : list (option A)) : option (list A) :=
  match l with
  | [] => Some []
  | Some a :: l' => match all_some l' with Some l'' => Some (a :: l'') | None => None end
  | None :: _ => None
  end.
Definition read_response (j : json) : option (list block_info) :=
  match one_field "data" j with
  | Some d => match one_field "blocks" d with Some (JArr l) => all_some (map read_info l) | _ => None end
  | None => None
  end.
(** the derived writers *)
Definition write_info (b : block_info) : json :=
  JObj [(str_bytes "blockHeight", JNum (block_height b)); (str_bytes "stateHash", JStr (state_hash b))].
Definition write_response (bs : list block_info) : json :=
  JObj [(str_bytes "data", JObj [(str_bytes "blocks", JArr (map write_info bs))])].

(** ** The folders output/succeeded and output/failed *)
Definition folder : Type := list Z -> option json.
Record disk : Type := { succeeded : folder; failed : folder }.
Definition same_name (a b : list Z) : bool := key_eqb a b.
Definition put (f : folder) (n : list Z) (v : option json) : folder := fun k => if same_name k n then v else f k.
(** A name of a file: no slash, no zero byte, at most 255 bytes.  (A slash would
    ask for a folder inside, which is not there.) *)
Definition file_name_ok (n : list Z) : bool :=
  forallb (fun c => negb (c =? 47) && negb (c =? 0)) n && (length n <=? 255)%nat.
(** 35, 43, 46-49 and 115 *)
Definition file_name (network : list Z) (b : block_info) : list Z := network ++ str_bytes "-" ++ shown b ++ str_bytes ".json".
Definition block_url (n : list Z) : list Z := str_bytes "https://storage.googleapis.com/mina_network_block_data/" ++ n.

(** What comes back from [reqwest::get(..).await?.text().await?]. *)
Inductive reply : Set := NoReply | Text (t : list Z).

Section Crawler.
  Variable checked : bool.
  Variable checksum : list Z -> list Z.
  Variable unaddr : list Z -> option (list Z * bool).
  Variable parse_text : list Z -> option json.

  (** 94-106 *)
  Definition retrieve (r : reply) : option json :=
    match r with
    | NoReply => None
    | Text t =>
      match parse_text t with
      | None => None
      | Some (JObj m) => Some (JObj (filter (fun kv => negb (key_eqb (fst kv) (str_bytes "scheduled_time"))) m))
      | Some j => Some j
      end
    end.
  (** 108-112 *)
  Definition parse_block_json (j : json) : res jerr val :=
    let* v := jde checked checksum unaddr jExternalTransition j in
    match down C_block v with Ok b => Ok b | Err _ => Err JE | Panic => Panic end.

  (** 34-44: before the answer; [true] if an answer is asked for *)
  Definition before (d : disk) (n : list Z) : disk * bool :=
    ({| succeeded := succeeded d; failed := put (failed d) n None |},
     match succeeded d n with Some _ => false | None => true end).
  (** 51-67 and 114-122: with the answer.  [std::fs::write(..).unwrap()] *)
  Definition after (d : disk) (n : list Z) (r : reply) : res unit disk :=
    match retrieve r with
    | None => Ok d
    | Some j =>
      match parse_block_json j with
      | Ok _ => if file_name_ok n then Ok {| succeeded := put (succeeded d) n (Some j); failed := failed d |} else Panic
      | Err _ => if file_name_ok n then Ok {| succeeded := succeeded d; failed := put (failed d) n (Some j) |} else Panic
      | Panic => Panic
      end
    end.

  (** main.rs 34-38: [for_each_concurrent].  The checks run in one task, each up
      to its next [await]; a panic ends the program. *)
  Inductive stage : Set := Fresh | Asking.
  Inductive crawl : Type :=
  | Running (pending : list (list Z)) (active : list (list Z * stage)) (d : disk)
  | Crashed (d : disk).
  Variable limit : nat.
  Variable answers : list Z -> reply -> Prop.
  Inductive step : crawl -> crawl -> Prop :=
  | s_pull : forall n p a d, (limit = 0 \/ length a < limit)%nat -> step (Running (n :: p) a d) (Running p (a ++ [(n, Fresh)]) d)
  | s_known : forall n p a1 a2 d d', before d n = (d', false) ->
      step (Running p (a1 ++ (n, Fresh) :: a2) d) (Running p (a1 ++ a2) d')
  | s_ask : forall n p a1 a2 d d', before d n = (d', true) ->
      step (Running p (a1 ++ (n, Fresh) :: a2) d) (Running p (a1 ++ (n, Asking) :: a2) d')
  | s_answer : forall n p a1 a2 d d' r, answers (block_url n) r -> after d n r = Ok d' ->
      step (Running p (a1 ++ (n, Asking) :: a2) d) (Running p (a1 ++ a2) d')
  | s_panic : forall n p a1 a2 d r, answers (block_url n) r -> after d n r = Panic ->
      step (Running p (a1 ++ (n, Asking) :: a2) d) (Crashed d).
  Inductive runs : crawl -> crawl -> Prop :=
  | r_here : forall s, runs s s
  | r_step : forall s s' s'', step s s' -> runs s' s'' -> runs s s''.
End Crawler.
(** main.rs 33-36: the crawl of the blocks that were fetched *)
Definition start (bs : list block_info) (d : disk) : crawl := Running (map (file_name (str_bytes "mainnet")) bs) [] d.
