(** Model of the pages of the wasm demos:
    - /repo/apps/wasm/mvp/web/pages/sendPayment.vue 31-115 and
      /repo/apps/wasm/mina-berkeley/web/pages/sendPayment.vue (the same without
      account info, with an endpoint that never changes unless it is typed)
    - /repo/apps/wasm/mvp/web/pages/graphql.vue 68-137 and
      /repo/apps/wasm/mina-berkeley/web/pages/graphql.vue
    - /repo/apps/wasm/mvp/src/logger.rs 1-79 (the same file in mina-berkeley) and
      js_exports.rs 69-74 ([init_logger])

    A page is a state with calls of the wasm module under way.  An event is what
    the user does or the end of a call; calls end in any order, or never (a
    panic of the module leaves its promise unsettled).  What [JSON.parse] and
    [JSON.stringify] do is a parameter.  Vue shows the state; that an undeclared
    member ([publicKey], [password]) is not watched by Vue is not modelled. *)
From Coq Require Import String ZArith List Bool.
From Verif Require Import Lib.Bytes Client.Payment.
Import ListNotations.
Local Open Scope list_scope.
Local Open Scope Z_scope.

Definition text := list Z.

(** How a promise ends. *)
Inductive outcome := Resolved (t : text) | Rejected (t : text).
(** What [x = await f()] in a [try] with [x = `${e}`] shows. *)
Definition shown (o : outcome) : text := match o with Resolved t => t | Rejected t => t end.

(** JavaScript's [!v], for the values that occur *)
Definition falsy (v : js) : bool :=
  match v with JsUndefined | JsNull | JsString [] => true | JsInt 0 | JsBigInt 0 => true | _ => false end.

(** A parameter of type [String]: wasm-bindgen asks for its length, which is a
    TypeError for [null] and [undefined]. *)
Definition string_arg (v : js) : option text := match v with JsString s => Some s | _ => None end.

(** A JSON object; assigning to a member keeps its place or adds it at the end. *)
Definition obj := list (text * js).
Fixpoint text_eqb (a b : text) : bool :=
  match a, b with
  | [], [] => true
  | x :: a', y :: b' => (x =? y) && text_eqb a' b'
  | _, _ => false
  end.
Fixpoint member (n : text) (o : obj) : option js :=
  match o with [] => None | (m, v) :: o' => if text_eqb n m then Some v else member n o' end.
Fixpoint assign (n : text) (v : js) (o : obj) : obj :=
  match o with
  | [] => [(n, v)]
  | (m, w) :: o' => if text_eqb n m then (m, v) :: o' else (m, w) :: assign n v o'
  end.
Definition from_name : text := str_bytes "from".

(** ** sendPayment.vue *)

Inductive call :=
| AccountInfo (key : text)
| LockAccount (key : text)
| UnlockAccount (key password : text)
| SendPayment (payment : obj).

Definition answer (prompted : option text) : js := match prompted with Some s => JsString s | None => JsNull end.

Record page := {
  public_key : js;
  password : js;
  payment_str : text;
  account_details : text;
  is_account_locked : text;
  payment_id : text;
  under_way : list (nat * call);
  number : nat }.

(** What the user does.  [prompted] is what they answer if they are asked
    ([None], JavaScript's [null], if they cancel). *)
Inductive event :=
| TypeKey (s : text)
| TypePayment (s : text)
| ClickInfo
| ClickLock (prompted : option text)
| ClickUnlock (prompted : option text)
| ClickSend
| End (id : nat) (o : outcome).

Section Page.
Variable parse : text -> option obj.
Variable stringify : obj -> text.
(** [`${e}`] of the TypeError of an argument and of a text that is no object *)
Variable type_error parse_error : text.

(** sendPayment.vue 40-54 *)
Definition first_page (s : text) : page :=
  {| public_key := JsUndefined; password := JsUndefined; payment_str := s; account_details := [];
     is_account_locked := []; payment_id := []; under_way := []; number := 0 |}.

Definition with_key (p : page) v :=
  {| public_key := v; password := password p; payment_str := payment_str p; account_details := account_details p;
     is_account_locked := is_account_locked p; payment_id := payment_id p; under_way := under_way p; number := number p |}.
Definition with_password (p : page) v :=
  {| public_key := public_key p; password := v; payment_str := payment_str p; account_details := account_details p;
     is_account_locked := is_account_locked p; payment_id := payment_id p; under_way := under_way p; number := number p |}.
Definition with_payment (p : page) s :=
  {| public_key := public_key p; password := password p; payment_str := s; account_details := account_details p;
     is_account_locked := is_account_locked p; payment_id := payment_id p; under_way := under_way p; number := number p |}.
Definition with_details (p : page) s :=
  {| public_key := public_key p; password := password p; payment_str := payment_str p; account_details := s;
     is_account_locked := is_account_locked p; payment_id := payment_id p; under_way := under_way p; number := number p |}.
Definition with_locked (p : page) s :=
  {| public_key := public_key p; password := password p; payment_str := payment_str p; account_details := account_details p;
     is_account_locked := s; payment_id := payment_id p; under_way := under_way p; number := number p |}.
Definition with_id (p : page) s :=
  {| public_key := public_key p; password := password p; payment_str := payment_str p; account_details := account_details p;
     is_account_locked := is_account_locked p; payment_id := s; under_way := under_way p; number := number p |}.
Definition send (p : page) (c : call) : page * list call :=
  ({| public_key := public_key p; password := password p; payment_str := payment_str p; account_details := account_details p;
      is_account_locked := is_account_locked p; payment_id := payment_id p;
      under_way := (number p, c) :: under_way p; number := S (number p) |}, [c]).

(** sendPayment.vue 63-73: [accountInfo] *)
Definition click_info (p : page) : page * list call :=
  if falsy (public_key p) then (p, [])
  else match string_arg (public_key p) with
       | Some k => send p (AccountInfo k)
       | None => (with_details p type_error, [])
       end.

(** sendPayment.vue 74-84: [lockAccount] asks for the key; the second argument is not used by the module *)
Definition click_lock (p : page) (prompted : option text) : page * list call :=
  let p := if falsy (public_key p) then with_key p (answer prompted) else p in
  match string_arg (public_key p) with
  | Some k => send p (LockAccount k)
  | None => (with_locked p type_error, [])
  end.

(** sendPayment.vue 85-98: [unlockAccount] *)
Definition click_unlock (p : page) (prompted : option text) : page * list call :=
  if falsy (public_key p) then (p, [])
  else
    let p := if falsy (password p) then with_password p (answer prompted) else p in
    match string_arg (public_key p), string_arg (password p) with
    | Some k, Some w => send p (UnlockAccount k w)
    | _, _ => (with_locked p type_error, [])
    end.

(** sendPayment.vue 99-112: [sendSignedPayment] *)
Definition click_send (p : page) : page * list call :=
  if falsy (public_key p) then (p, [])
  else match parse (payment_str p) with
       | Some o =>
         let o := assign from_name (public_key p) o in
         send (with_payment p (stringify o)) (SendPayment o)
       | None => (with_id p parse_error, [])
       end.

(** The rest of a method after its [await]. *)
Definition after (p : page) (c : call) (o : outcome) : page :=
  match c with
  | AccountInfo _ => with_details p (shown o)
  | LockAccount _ =>
    let p := with_locked p (shown o) in
    match o with Resolved _ => with_password p (JsString []) | Rejected _ => p end
  | UnlockAccount _ _ => with_locked p (shown o)
  | SendPayment _ => with_id p (shown o)
  end.

Fixpoint take (id : nat) (l : list (nat * call)) : option (call * list (nat * call)) :=
  match l with
  | [] => None
  | (i, c) :: l' =>
    if Nat.eqb id i then Some (c, l')
    else match take id l' with Some (d, r) => Some (d, (i, c) :: r) | None => None end
  end.
Definition with_under_way (p : page) l :=
  {| public_key := public_key p; password := password p; payment_str := payment_str p; account_details := account_details p;
     is_account_locked := is_account_locked p; payment_id := payment_id p; under_way := l; number := number p |}.

Definition step (p : page) (e : event) : page * list call :=
  match e with
  | TypeKey s => (with_key p (JsString s), [])
  | TypePayment s => (with_payment p s, [])
  | ClickInfo => click_info p
  | ClickLock a => click_lock p a
  | ClickUnlock a => click_unlock p a
  | ClickSend => click_send p
  | End id o =>
    match take id (under_way p) with
    | Some (c, l) => (after (with_under_way p l) c o, [])
    | None => (p, [])
    end
  end.

(** A run, with the calls that left the page. *)
Fixpoint run (p : page) (es : list event) : page * list call :=
  match es with
  | [] => (p, [])
  | e :: es' => let '(p1, c1) := step p e in let '(p2, c2) := run p1 es' in (p2, c1 ++ c2)
  end.
End Page.

(** ** graphql.vue *)

(** The text about the best chain (graphql.vue 121-129).  A poll is asked for,
    ends, and if it ended well the chain is asked for; its answer is shown. *)
Inductive poll_event :=
| ClickPoll
| PollEnds (id : nat) (ok : bool)
| ChainEnds (id : nat) (t : text).
Inductive stage := Polling | Reading.
Record board := { best : text; polls : list (nat * stage); poll_number : nat }.
Definition updating : text := str_bytes "updating" ++ [10].
Definition first_board : board := {| best := []; polls := []; poll_number := 0 |}.
Fixpoint stage_of (id : nat) (l : list (nat * stage)) : option stage :=
  match l with [] => None | (i, s) :: l' => if Nat.eqb id i then Some s else stage_of id l' end.
Definition drop (id : nat) (l : list (nat * stage)) := filter (fun x => negb (Nat.eqb id (fst x))) l.
Definition poll_step (b : board) (e : poll_event) : board :=
  match e with
  | ClickPoll =>
    {| best := updating ++ best b; polls := (poll_number b, Polling) :: polls b; poll_number := S (poll_number b) |}
  | PollEnds id ok =>
    match stage_of id (polls b) with
    | Some Polling =>
      {| best := best b; polls := if ok then (id, Reading) :: drop id (polls b) else drop id (polls b);
         poll_number := poll_number b |}
    | _ => b
    end
  | ChainEnds id t =>
    match stage_of id (polls b) with
    | Some Reading => {| best := t; polls := drop id (polls b); poll_number := poll_number b |}
    | _ => b
    end
  end.
Definition poll_run (b : board) (es : list poll_event) : board := fold_left poll_step es b.

(** ** The log *)

(** Levels of the log crate, from the most to the least important. *)
Inductive log_level := LError | LWarn | LInfo | LDebug | LTrace.
Definition level_number (l : log_level) : Z := match l with LError => 1 | LWarn => 2 | LInfo => 3 | LDebug => 4 | LTrace => 5 end.
Definition level_name (l : log_level) : text :=
  str_bytes match l with LError => "ERROR" | LWarn => "WARN" | LInfo => "INFO" | LDebug => "DEBUG" | LTrace => "TRACE" end.
Record record := { r_level : log_level; r_target : text; r_args : text }.

(** logger.rs 58-62 *)
Definition record_to_string (r : record) : text :=
  str_bytes "[" ++ level_name (r_level r) ++ str_bytes "][" ++ r_target r ++ str_bytes "]: " ++ r_args r.

(** The logger of the process: the maximal level of the log crate (0 is off)
    and whether the logger is set; the text kept by JavaScript. *)
Record logging := { max_level : Z; logger_set : bool; log_text : text }.
Definition first_logging : logging := {| max_level := 0; logger_set := false; log_text := [] |}.

Inductive log_event := InitLogger | Log (r : record) | ClearLog.
(** js_exports.rs 69-74 (the maximal level is set before [set_logger] can fail),
    logger.rs 65-76, 9-27; the macros of the log crate compare with the maximal
    level and call the logger that is set, if any. *)
Definition log_step (s : logging) (e : log_event) : logging * bool :=
  match e with
  | InitLogger => ({| max_level := 4; logger_set := true; log_text := log_text s |}, negb (logger_set s))
  | Log r =>
    if (level_number (r_level r) <=? max_level s) && logger_set s && (level_number (r_level r) <=? 4)
    then ({| max_level := max_level s; logger_set := true; log_text := log_text s ++ 10 :: record_to_string r |}, true)
    else (s, true)
  | ClearLog => ({| max_level := max_level s; logger_set := logger_set s; log_text := [] |}, true)
  end.
Definition log_run (s : logging) (es : list log_event) : logging := fold_left (fun s e => fst (log_step s e)) es s.
