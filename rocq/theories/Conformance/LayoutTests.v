(** The expected values of the repository's own tests of decoding by layout and
    of the wire types (/repo/protocol/bin-prot/tests/layouts.rs and
    /repo/protocol/serialization-types/tests/{coinbase,account}.rs), run on the
    model. *)
From Coq Require Import String ZArith List Bool.
From Verif Require Import Lib.Res Lib.Bytes Json.Json BinProt.Prim BinProt.Codec BinProt.BufRead Loose.Loose Loose.Index
  Layout.LayoutJson Text.Base58 Text.Checksum Wire.Types.
Import ListNotations.
Local Open Scope Z_scope.
Local Open Scope string_scope.
Local Open Scope list_scope.
Ltac tables := repeat match goal with |- _ /\ _ => split end; vm_compute; reflexivity.
Definition s (x : string) : json := JStr (str_bytes x).
Definition o (m : list (string * json)) : json := JObj (map (fun p => (str_bytes (fst p), snd p)) m).

(** tests/layouts.rs 12-23 *)
Definition simple_rule : json :=
  JArr [s "Option"; JArr [s "Tuple"; JArr [JArr [s "Int"]; JArr [s "Bool"]]]].

(** tests/layouts.rs 43-52 *)
Definition record_rule : json :=
  JArr [s "Record"; JArr [o [("field_name", s "first"); ("field_rule", JArr [s "Int"])]; o [("field_name", s
    "second"); ("field_rule", JArr [s "Record"; JArr [o [("field_name", s "inner"); ("field_rule", JArr [s
    "Bool"])]]])]; o [("field_name", s "third"); ("field_rule", JArr [s "Bool"])]]].

(** tests/layouts.rs 106-122 *)
Definition sum_rule : json :=
  JArr [s "Sum"; JArr [o [("ctor_name", s "one"); ("index", JNum 0); ("ctor_args", JArr [JArr [s "Int"]])]; o
    [("ctor_name", s "two"); ("index", JNum 1); ("ctor_args", JArr [JArr [s "Bool"]])]]].

(** tests/layouts.rs 142-164 *)
Definition tagged_polyvar_rule : json :=
  JArr [s "Polyvar"; JArr [JArr [s "Tagged"; o [("polyvar_name", s "One"); ("hash", JNum 3953222); ("polyvar_args",
    JArr [JArr [s "Int"]])]]; JArr [s "Tagged"; o [("polyvar_name", s "Two"); ("hash", JNum 4203884);
    ("polyvar_args", JArr [JArr [s "Bool"]])]]]].

(** tests/layouts.rs 184-201 *)
Definition nested_sum_rule : json :=
  JArr [s "Sum"; JArr [o [("ctor_name", s "one"); ("index", JNum 0); ("ctor_args", JArr [JArr [s "Record"; JArr [o
    [("field_name", s "first"); ("field_rule", JArr [s "Int"])]]]])]]].

(** tests/layouts.rs 224-229 *)
Definition option_rule : json :=
  JArr [s "Option"; JArr [s "Int"]].

(** tests/layouts.rs 255-279 *)
Definition multiple_ctor_arg_sum_rule : json :=
  JArr [s "Sum"; JArr [o [("ctor_name", s "one"); ("index", JNum 0); ("ctor_args", JArr [JArr [s "Record"; JArr [o
    [("field_name", s "first"); ("field_rule", JArr [s "Int"])]]]; JArr [s "Record"; JArr [o [("field_name", s
    "second"); ("field_rule", JArr [s "Int"])]]]])]]].

(** tests/layouts/extended_uint32_rule.json *)
Definition extended_uint32_rule : json :=
  JArr [s "Reference"; JArr [s "Resolved"; o [("source_type_decl", s "type t = { version: int ; t: typ }");
    ("source_module_path", s "Nat.Make32"); ("bin_io_derived", JBool true); ("ref_rule", JArr [s "Record"; JArr [o
    [("field_name", s "version"); ("field_rule", JArr [s "Int"])]; o [("field_name", s "t"); ("field_rule", JArr [s
    "Reference"; JArr [s "Resolved"; o [("source_type_decl", s "type t = { version: int ; t: typ }");
    ("source_module_path", s "Unsigned_extended.UInt32"); ("bin_io_derived", JBool false); ("ref_rule", JArr [s
    "Record"; JArr [o [("field_name", s "version"); ("field_rule", JArr [s "Int"])]; o [("field_name", s "t");
    ("field_rule", JArr [s "Reference"; JArr [s "Resolved"; o [("source_type_decl", s "Unsigned.UInt32.t");
    ("source_module_path", s "Unsigned_extended.UInt32"); ("bin_io_derived", JBool false); ("ref_rule", JArr [s
    "Int32"])]]])]]])]]])]]])]]].

(** tests/layouts.rs 24-42 and the like: the layout is read, the bytes are
    decoded by it and the value is written again ([test_reserialize]).  The size
    of a rule only bounds the lengths of lists. *)
Definition decodes (j : json) (bytes : list Z) (v : value) : Prop :=
  match rule_of_json j with
  | Some r => loose_value 200 r bytes = Ok (v, []) /\ vser v = bytes
  | None => False
  end.
Ltac dec := vm_compute; repeat split.
Example test_simple_rule :
  decodes simple_rule [0x01; 0x00; 0x00] (LOption (Some (LTuple [LInt 0; LBool false]))).
Proof. dec. Qed.
Definition record_value : value :=
  LRecord [("first", LInt 5); ("second", LRecord [("inner", LBool false)]); ("third", LBool true)].
Example test_record_rule :
  decodes record_rule [0x05; 0x00; 0x01] record_value /\
  index_path record_value [KName "second"; KName "inner"] = Ok (LBool false).
Proof. split; dec. Qed.
Example test_sum_rule : decodes sum_rule [0x01; 0x00] (LSum "two" 1 (LTuple [LBool false])).
Proof. dec. Qed.
Example test_tagged_polyvar_rule :
  decodes tagged_polyvar_rule [0xd9; 0x4a; 0x80; 0x00; 0x01] (LPolyvar "Two" 4203884 (LTuple [LBool true])).
Proof. dec. Qed.
Example test_nested_sum_rule :
  decodes nested_sum_rule [0x00; 0x05] (LSum "one" 0 (LTuple [LRecord [("first", LInt 5)]])).
Proof. dec. Qed.
Example test_option_rule :
  decodes option_rule [0x00] (LOption None) /\ decodes option_rule [0x01; 0x07] (LOption (Some (LInt 7))).
Proof. split; dec. Qed.
Example test_multiple_ctor_arg_sum_rule :
  decodes multiple_ctor_arg_sum_rule [0x00; 0x05; 0x06]
    (LSum "one" 0 (LTuple [LRecord [("first", LInt 5)]; LRecord [("second", LInt 6)]])).
Proof. dec. Qed.
Example test_extended_u32_rule : exists v,
  decodes extended_uint32_rule [0x01; 0x01; 0xff; 0xff] v /\
  index_path v [KName "t"; KName "t"] = Ok (LInt (-1)) /\ vser (LInt (-1)) = [0xff; 0xff].
Proof.
  exists (LRecord [("version", LInt 1); ("t", LRecord [("version", LInt 1); ("t", LInt (-1))])]).
  split; [|split]; dec.
Qed.

(** protocol/serialization-types/tests/coinbase.rs 12-63.  A fee transfer is a
    key of 32 zero bytes and a fee, under two versions; the key is the one of
    the address there. *)
Definition zero_key : list Z := [1; 1; 1; 1] ++ repeat 0 32 ++ [0].
Definition ver (n : nat) (v : val) : val := Nat.iter n (fun v => VTup [VInt 1; v]) v.
Definition transfer (fee : Z) : val :=
  ver 2 (VTup [ver 2 (VTup [VTup (repeat (VInt 0) 32); VBool false]); ver 2 (VInt fee)]).
Definition address : list Z := str_bytes "B62qiTKpEPjGTSHZrtM8uXiKgn8So916pLmNJKDhKeyBQL9TDb3nvBG".
Example test_coinbase_two_deserialization :
  from_slice true CoinBaseV1 ([1; 2; 1] ++ zero_key ++ [1; 1; 0xfe; 0xf7; 0x00; 0]) =
    Ok (ver 1 (VEnum 2 [VSome (transfer 247); VNone]), []) /\
  from_slice true CoinBaseV1
    ([1; 2; 1] ++ zero_key ++ [1; 1; 0xfe; 0xf7; 0x00; 1] ++ zero_key ++ [1; 1; 0xfd; 0x42; 0x42; 0x0f; 0x00]) =
    Ok (ver 1 (VEnum 2 [VSome (transfer 247); VSome (transfer 1000002)]), []) /\
  into_address sha_checksum (repeat 0 32) false = address.
Proof. tables. Qed.

(** protocol/serialization-types/tests/account.rs 10-41 *)
Definition account_1 : list Z :=
  [1; 1; 1; 1; 1; 1; 177; 63; 90; 166; 173; 124; 98; 72; 60; 89; 250; 36; 135; 129; 70; 43; 220; 220; 252; 37;
   84; 12; 158; 57; 33; 162; 137; 244; 135; 244; 18; 7; 0; 1; 1; 1; 1; 1; 1; 0; 1; 1; 1; 252; 0; 122; 84; 142;
   78; 9; 0; 0; 1; 1; 0; 1; 11; 20; 60; 6; 69; 73; 122; 89; 135; 167; 184; 143; 102; 52; 14; 3; 219; 148; 63;
   10; 13; 244; 139; 105; 163; 168; 41; 33; 206; 151; 177; 10; 1; 1; 1; 178; 63; 90; 166; 173; 124; 98; 72; 60;
   89; 250; 36; 135; 129; 70; 43; 220; 220; 252; 37; 84; 12; 158; 57; 33; 162; 137; 244; 135; 244; 18; 7; 0; 1;
   0; 0; 0; 0; 0; 0; 0; 0; 0; 0; 0; 0; 0; 0; 0; 0; 0; 0; 0; 0; 0; 0; 0; 0; 0; 0; 0; 0; 0; 0; 0; 0; 1; 1; 1; 1;
   1; 1; 252; 0; 122; 84; 142; 78; 9; 0; 0; 1; 1; 253; 128; 81; 1; 0; 1; 1; 252; 0; 122; 84; 142; 78; 9; 0; 0;
   1; 1; 1; 1; 1; 0; 1; 1; 1; 1; 3; 1; 3; 1; 0; 1; 3; 1; 3; 1; 3; 0].
Definition account_2 : list Z :=
  [1; 1; 1; 1; 1; 1; 15; 72; 198; 91; 210; 95; 133; 243; 228; 234; 78; 254; 190; 183; 91; 121; 123; 215; 67; 96;
   59; 224; 75; 78; 173; 132; 86; 152; 183; 107; 211; 49; 0; 1; 1; 1; 1; 1; 1; 0; 1; 1; 1; 254; 232; 3; 1; 1; 0;
   1; 11; 20; 60; 6; 69; 73; 122; 89; 135; 167; 184; 143; 102; 52; 14; 3; 219; 148; 63; 10; 13; 244; 139; 105;
   163; 168; 41; 33; 206; 151; 177; 10; 1; 1; 1; 15; 72; 198; 91; 210; 95; 133; 243; 228; 234; 78; 254; 190;
   183; 91; 121; 123; 215; 67; 96; 59; 224; 75; 78; 173; 132; 86; 152; 183; 107; 211; 49; 0; 1; 0; 0; 0; 0; 0;
   0; 0; 0; 0; 0; 0; 0; 0; 0; 0; 0; 0; 0; 0; 0; 0; 0; 0; 0; 0; 0; 0; 0; 0; 0; 0; 0; 1; 1; 0; 1; 1; 1; 1; 3; 1;
   3; 1; 0; 1; 3; 1; 3; 1; 3; 0].
(** The test only asks that the bytes are read to the end; here they are also
    written again. *)
Definition account_back (bs : list Z) : bool :=
  match from_slice true AccountV1 bs with
  | Ok (v, []) => match to_bytes true AccountV1 v with Ok bs' => list_eqb bs' bs | _ => false end
  | _ => false
  end.
Example smoke_test_account_deserialization : account_back account_1 = true /\ account_back account_2 = true.
Proof. tables. Qed.
