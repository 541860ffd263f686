(** The proof of the first block of mainnet:
    /repo/consensus/src/genesis/config.rs 126-476, with the constructors of
    /repo/base/src/protocol_state_proof that it calls.

    The texts of config.rs are read by the model of the hex reader
    (Text/Hex.v).  [ProtocolStateProof::default()] is followed by assignments
    to its members; a member that is never assigned is given here by its
    default value.  *)

From Coq Require Import String ZArith List Bool.
From Verif Require Import Lib.Res Lib.Bytes BinProt.Codec Text.Hex Convert.Conv Convert.BlockConv Hashing.Command Consensus.Genesis.
Import ListNotations.
Local Open Scope string_scope.
Local Open Scope list_scope.
Local Open Scope Z_scope.

(** [Result::expect] *)
Definition expect {E F A : Set} (r : res E A) : res F A := match r with Ok a => Ok a | _ => Panic end.

(** ** Constructors *)
(** /repo/base/src/numbers.rs 301-304 *)
Definition bigint (s : string) : res herr val := rmap arrayv (field_from_hex (str_bytes s)).
(** field_and_curve_elements.rs 33-45, for the texts of config.rs; a list of
    texts is joined first *)
Definition elements (s : list string) : res herr val :=
  rmap (fun v => VSeq (map arrayv v)) (vec_from_hex (concat (map str_bytes s))).
(** field_and_curve_elements.rs 80-90 *)
Definition point (s1 s2 : string) : res herr val :=
  let* x := bigint s1 in let* y := bigint s2 in Ok (VTup [x; y]).
(** field_and_curve_elements.rs 112-125 *)
Definition point_pair (s1 s2 s3 s4 : string) : res herr val :=
  let* a := point s1 s2 in let* b := point s3 s4 in Ok (VTup [a; b]).
(** bulletproof_challenges.rs 147-151 *)
Definition scalar2 (a b : Z) : val := VTup [VInt a; VInt b; VUnit].
(** bulletproof_challenges.rs 137-141 *)
Definition scalar (a b : Z) : val := VEnum 0 [scalar2 a b].
(** bulletproof_challenges.rs 13-19 *)
Definition challenge (a b : Z) : val := VTup [scalar a b].
(** bulletproof_challenges.rs 56-79, 105-129: an array of 34 or 36 numbers,
    two for each challenge *)
Fixpoint challenges (l : list Z) : list val :=
  match l with a :: b :: l' => challenge a b :: challenges l' | _ => [] end.
Definition challenge_tuple (l : list Z) : val := VTup (challenges l ++ [VUnit]).
(** mod.rs 95-97 *)
Definition shifted (v : val) : val := VEnum 0 [v].
(** field_and_curve_elements.rs 145-150: [Finite] is the second variant *)
Definition finite (p : val) : val := VEnum 1 [p].
(** [Hex64::default()] four times: mod.rs 105-107 *)
Definition default_digest : val := VTup [VInt 0; VInt 0; VInt 0; VInt 0; VUnit].

(** proof_evaluations.rs 10-19, as read by the closures of config.rs *)
Record evals_text := { t_l : list string; t_r : list string; t_o : list string; t_z : list string;
  t_t : list string; t_f : list string; t_sigma1 : list string; t_sigma2 : list string }.
Definition evaluations (e : evals_text) : res herr val :=
  let* l := elements (t_l e) in let* r := elements (t_r e) in let* o := elements (t_o e) in let* z := elements (t_z e) in
  let* t := elements (t_t e) in let* f := elements (t_f e) in let* s1 := elements (t_sigma1 e) in let* s2 := elements (t_sigma2 e) in
  Ok (lit C_ProofEvaluations [("l", l); ("r", r); ("o", o); ("z", z); ("t", t); ("f", f); ("sigma1", s1); ("sigma2", s2)]).

(** ** The texts and numbers of config.rs *)
(** 140-177 *)
Definition numbers18 : list Z :=
  [621834770194220300; (-4327941673388439925); 8902445049614368905; (-5479804816757020655);
   8345091427968288705; 8258453988658898844; 746390447645740837; (-5643124118675291918);
   (-5948286762976073031); 3913620533516803836; 6451156200849374208; (-7149474906925249401);
   2545802753099625135; (-3046285123411643010); 1476045778313053942; 7088211501506636392;
   (-5780902958823199474); 684672559108579835; (-479599555522051695); 6277689784759994790;
   (-6174909374622547011); (-2876420228592515736); (-5612139484668830099); (-141685165274757211);
   (-9057284384873862529); (-218923106050670804); (-4381571242292214582); (-7982158890774157783);
   (-2589693721356185105); 47703702537737607; 6933529253212730047; (-453811945482877525);
   (-7749055720453093542); (-3329383869546507530); (-4722006655881085948); (-2216518060947545516)].
(** 219-254 *)
Definition numbers17 : list Z :=
  [(-4147613965780683501); 1618424163113385480; 5242665654050011345; 1974270862881305038;
   3711726721677311855; 8761545649494038627; (-2505642933990422633); (-2487422680924118585);
   (-4113786261177851957); 566815174034496733; 5993263758714673683; (-6259514542256722053);
   (-2117686120277866613); (-550460597093069586); 2143052809542605959; 5556201566125368992;
   (-7172698754141626607); (-6773867482688065048); 6641554769559773261; 6524714810323564443;
   2504198601910020936; (-6446749539458519571); (-8068243033437084562); (-4483743298391994862);
   4919588161765452745; (-7115468514000056859); 4798728907681213006; (-7518434295045703748);
   (-7365006775264907657); (-1160122940338191724); 5439700123898059092; (-7701257753186809792);
   3229587527204030387; 6616313680930013725].
(** 258-293 *)
Definition prev_evals_0 : evals_text := {|
  t_l := ["0x0e5019ef595b796f872edae874df3e6bd1e94424aed7ba4d7ac5fe5ae2252415"];
  t_r := ["0xcece924af1289b226fbb6cbef809b94422a9d91f0782ada0d87efc83d019b91b"];
  t_o := ["0x4a4ee9d8cef37e704d57836e2bd42c696466e27197e166e5a4ac87af6f17a924"];
  t_z := ["0xde7e57ed0235ed1315ee7c76582fe85ef13410571a7537bcd7bd3919f266ec1e"];
  t_t := ["8d1ef8e24acf35e68f404480324352e921645bc354b05644e7bd4eb3a80e9d13";
    "d23d44555c569324067d82817632a4b48be314267101a09873197275d0284f05";
    "9984de5ad3091c523f90db6792526b36b3d0936bda8aa8aa82112748e1aafb2d";
    "9d53c85bdbc8b9f895fd3cf285409ade24d077c6b1fb884be8ed03a609207a15";
    "7ea8c0fb257e5118e548d9c7d59f5858ca153b9f785062313d250e24e2032914"];
  t_f := ["0xadb1afcfaffe7569656b54d5ce39f7c11a55958f63f432efba9aa96334e3f013"];
  t_sigma1 := ["0x0d19edbacb9cf02bbf5c1c1053d422479526855038c072772a0a970f3a54d525"];
  t_sigma2 := ["0x89ac7052c36f50a89bcd060ba67fa9446dfeb0b6d80a74ef617dd4af66cc2039"] |}.
(** 295-330 *)
Definition prev_evals_1 : evals_text := {|
  t_l := ["0xac5d1055e6dc85e696cde2e4cd58e4117556622de616c04b3427ebcf4e792139"];
  t_r := ["0xa2e054c65b914b2ecca3a9baa335a0d6a5019cfbb19ce073ead52e1f0f963f30"];
  t_o := ["0xde64bff3163383af2268774d29f97382656925a3846e08d1b9dbfd8107095008"];
  t_z := ["0x1a79c92067af3a93e38e3b7ab551ed30cb2598be3d531afcb3161ff46452790c"];
  t_t := ["ffdb4e909d77296575ef162db731581693a8ae1a2628e9d7b114f6e64832300a";
    "17e6fcda006321d26f68e2968b0848763607f832f9adb0baa71a15b92f798825";
    "cfe6f5fcc752393dcbfc941256c2ba8499d32228ae1add120d0fbeccd9389233";
    "2888c27164b90b341a97a882c5454f5868a8d68796b3f18ef54280ee3f96283a";
    "c3181d87d0ab4a99cec885b3d4de51b0bca32b306ebece8dca1a872bc0efc41d"];
  t_f := ["0x40128adc323cecd24b5f4deff834be960c90a5c97d16ce6d123ede8c95b2bf3c"];
  t_sigma1 := ["0x92f5fcdc0c4cd3f6de427948b078312e0b3744b64932b55af6141ce8fe6ed82c"];
  t_sigma2 := ["0x4cb1e1bcec843fab7e37780f44880d58ebfa3c28b4c0c913ae41495a5bcf5b19"] |}.
(** 401-436 *)
Definition openings_0 : evals_text := {|
  t_l := ["0x2e53605b801ad7fea745e9766add8da9ed33589d758fb339fed40c329c59aa27"];
  t_r := ["0xb77a8788b07f7cd1c9c61618755cca3d0d303a7b096124ce0c02dc5f451a0f03"];
  t_o := ["0x2e1e68731d00b84720038823777ec6522d9a1e9e365920c3e7ce064ade0c2e1e"];
  t_z := ["0xd96d62e54a0a49d3a44c919eb4b089333d64a236edcda1921274ac6903bad937"];
  t_t := ["717115e59713c84f88babe2ec0292518060d2cc82b54e9a9c9a2d2a87ce91e15";
    "6994e270f284a557c418afebfaaca2794c8af6a476cb1b9478c205e8a901170f";
    "d82d38717842bde317157edf186a5b2a5ac2a035a069b18a1bb790d8a1b60e26";
    "c37d692c8473aa9a246bb85e5c4323cd0c5a69e4b9ce1ae160f961447c31ae2e";
    "cce3a78dfa242d8c53e89467cc986dfd332db987d76c66e7735a47ef34e90f28"];
  t_f := ["0x5dd93c9b2c3fcee30fa34960f2472fcd04d9de8486f635c9b96d776fae31221f"];
  t_sigma1 := ["0xa84f94a0d6d64be0b97049b92ae2c58a8cb93e792179fab57fa32c4695abe724"];
  t_sigma2 := ["0x2c7c6aa5123b41aa8eace85a7eeeb8ebb22219c9353b9276711199aaa8018217"] |}.
(** 438-473 *)
Definition openings_1 : evals_text := {|
  t_l := ["0x16eba2ebda9feac442e29ef9293f5c4576933d531a6e3c07518e352241055f3d"];
  t_r := ["0xdcf5b2e12453b8369c420e76ada0fb6c6e173f2271aa19ec6db8010112611605"];
  t_o := ["0x35362d986f20c598e53c3de0b8fc41300484243172af893cc99ca199aa16163c"];
  t_z := ["0xf0951e6a385fb4ea8b5e2cf0e89e54807a99938b0ab69c77f1b9b210a05d152e"];
  t_t := ["b5c98d3a881eaad5600d89920dff83025079d27bde3ceadd14425bfc8a40d310";
    "ee802beaf4ddbaf3b69698689d7e76b670caa65ddbd92197227ab0c8dfba3624";
    "6bdf230ec07a915319c606ad930c41dd7f097222ada2776a484e755feb2d491c";
    "e00d36cc2b6076c23184046c0a2a062085215644fe29549a6252025055bdfb1c";
    "37befa9d80c628fb8b3f7f5316912c175426a0ad9a83db780847d636f1ccab09"];
  t_f := ["0xc0441628012519d76fef0107434dc56bb174e7d1610cde2fc86d6aa72b75ad1a"];
  t_sigma1 := ["0xcd71c8afe1a719f2e5e83fce7941fb9a313e2b9262480afa68675dcfab64b20a"];
  t_sigma2 := ["0xe580093d240406f6684b313ce40669bd5ba1c8df3ed53ced2f473c037af19a08"] |}.
(** ** The proof: 127-475 *)
Definition mainnet_proof : res Empty_set val :=
  (* 130-137 *)
  let* fpp := expect (point
    "0x9c84b80df8bb7db9a77648695dc02c08996d3b6ce15a9bca579dd4d1ef2ca831"
    "0x46fa45bdaa020b13e81365a2df2685c07d355deb88e2adf6a98769ab64177335") in
  (* 139 *)
  let t18 := challenge_tuple numbers18 in
  let old := [t18; t18] in
  let* combined_inner_product := expect (bigint
    "0x000c4669b4dcafbb30ba5442962c0e352818b397156aa59c007e1f2af989b938") in
  let* b := expect (bigint
    "0x405fb711eae9fca78875db8db66189c56d426fea068f2826fe5cb0b0afe06a0e") in
  (* [old_bulletproof_challenges.0[0]] panics on an empty vector *)
  let* first := match old with x :: _ => Ok x | [] => Panic end in
  let* me_sg := expect (point
    "0xc60a524476af46c04d571246d5dfd73b82d34a5cc50d3e279dd4e96239879c1b"
    "0xb9840fae14d5456882791e827d1b21be94a173c96e149e0a226af7d47431d604") in
  let t17 := challenge_tuple numbers17 in
  let* pe0 := expect (evaluations prev_evals_0) in
  let* pe1 := expect (evaluations prev_evals_1) in
  let* x_hat := expect (point
    "0xc0c84dfea15306bb962715b921c0117fde9f3f9dffa9734fca977cae86549037"
    "0xad6cf259ffead18d3afd382f410e771a3d5d0f261454fa699693d81c45cc803c") in
  let* ec_point := expect (point
    "0x0100000000000000000000000000000000000000000000000000000000000000"
    "0xbb2aedca237acf1971473d33d45b658f54ee7863f0a9df537c93120aa3b5741b") in
  let comm := VSeq [ec_point] in
  let* lr := expect (point_pair
    "0x0100000000000000000000000000000000000000000000000000000000000000"
    "0xbb2aedca237acf1971473d33d45b658f54ee7863f0a9df537c93120aa3b5741b"
    "0x0100000000000000000000000000000000000000000000000000000000000000"
    "0xbb2aedca237acf1971473d33d45b658f54ee7863f0a9df537c93120aa3b5741b") in
  let* z_1 := expect (bigint
    "0x27a6753e3c16b98921d53d185402e874f318a819fdf2f3ac6667262045aa8a26") in
  let* z_2 := expect (bigint
    "0x664e7ca6fe93f151f069508b826ad5d06c71549318cbc911da6b74d06efe2806") in
  let* oe0 := expect (evaluations openings_0) in
  let* oe1 := expect (evaluations openings_1) in
  Ok (lit C_ProtocolStateProof
    [("statement", lit C_ProofStatement
        [("proof_state", lit C_ProofState
            [("deferred_values", lit C_ProofStateDeferredValues
                [("plonk", lit C_Plonk
                    [("alpha", scalar 8485106177194710905 (-1312226530362767951));
                     ("beta", scalar2 (-6430667927186375774) (-3337607204513408471));
                     ("gamma", scalar2 8370999550582557960 2564953582899372946);
                     ("zeta", scalar 723815570568662761 (-7895844621402831008))]);
                 ("combined_inner_product", shifted combined_inner_product);
                 ("b", shifted b);
                 ("xi", scalar 9192024484525083167 (-4963136190301137182));
                 ("bulletproof_challenges", first);
                 ("which_branch", VInt 0)]);
             (* never assigned *)
             ("sponge_digest_before_evaluations", default_digest);
             ("me_only", lit C_ProofStatePairingBased
                [("sg", me_sg); ("old_bulletproof_challenges", VTup [t17; t17; VUnit])])]);
         ("pass_through", lit C_PairingBased
            (* [app_state] is never assigned *)
            [("app_state", VUnit); ("sg", VSeq [fpp; fpp]); ("old_bulletproof_challenges", VSeq old)])]);
     ("prev_evals", VTup [pe0; pe1]);
     ("prev_x_hat", x_hat);
     ("proof", lit C_Proof
        [("messages", lit C_ProofMessages
            [("l_comm", comm); ("r_comm", comm); ("o_comm", comm); ("z_comm", comm);
             ("t_comm", lit C_ProofMessageWithDegreeBound
                [("unshifted", VSeq (List.repeat (finite ec_point) 5)); ("shifted", finite ec_point)])]);
         ("openings", lit C_ProofOpenings
            [("proof", lit C_OpeningProof
                [("lr", VSeq (List.repeat lr 17)); ("z_1", z_1); ("z_2", z_2); ("delta", ec_point); ("sg", ec_point)]);
             ("evals", VTup [oe0; oe1])])])]).
