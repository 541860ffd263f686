(** The layout documents of the repository, protocol/layouts/verification_key.json,
    protocol_state.json, external_transition.json and snark_work.json (written by a
    script; equal parts are shared).  The theorem at the end says that they are
    read as the rules of Layout/Shipped.v, about which C103 speaks. *)
From Coq Require Import String ZArith List.
From Verif Require Import Lib.Bytes Json.Json Loose.Loose Layout.LayoutJson Layout.LayoutSpec Layout.Shipped.
Import ListNotations.
Local Open Scope string_scope.
Local Open Scope list_scope.
Local Open Scope Z_scope.

Definition j0 := jstr "File ""src/lib/pickles/verification_key.ml"", line 36, characters 4-238:".
Definition j1 := jstr "Verification_key".
Definition j2 := jstr "type t = { version: int ; t: typ }".
Definition j3 := jstr "Record".
Definition j4 := jstr "version".
Definition j5 := jstr "Int".
Definition j6 := JArr [j5].
Definition j7 := jobj [("field_name", j4); ("field_rule", j6)].
Definition j8 := jstr "t".
Definition j9 := jstr "Reference".
Definition j10 := jstr "Resolved".
Definition j11 := jstr "Verification_key.Repr".
Definition j12 := jstr "type t = { commitments: Backend.Tock.Curve.Affine.Stable.V1.t array Plonk_verification_key_evals.Stable.V1.t ; step_domains: Domains.Stable.V1.t array ; data: Data.Stable.V1.t }".
Definition j13 := jstr "Verification_key.Repr.Stable.V1".
Definition j14 := jstr "commitments".
Definition j15 := jstr "type 'comm t = { version: int ; t: 'comm typ }".
Definition j16 := jstr "Plonk_verification_key_evals".
Definition j17 := jstr "type 'comm t = 'comm Marlin_plonk_bindings_types.Plonk_verification_evals.t = { sigma_comm_0: 'comm ; sigma_comm_1: 'comm ; sigma_comm_2: 'comm ; ql_comm: 'comm ; qr_comm: 'comm ; qo_comm: 'comm ; qm_comm: 'comm ; qc_comm: 'comm ; rcm_comm_0: 'comm ; rcm_comm_1: 'comm ; rcm_comm_2: 'comm ; psm_comm: 'comm ; add_comm: 'comm ; mul1_comm: 'comm ; mul2_comm: 'comm ; emul1_comm: 'comm ; emul2_comm: 'comm ; emul3_comm: 'comm }".
Definition j18 := jstr "Plonk_verification_key_evals.Stable.V1".
Definition j19 := jstr "sigma_comm_0".
Definition j20 := jstr "List".
Definition j21 := jstr "type t = (BaseField.Stable.Latest.t * BaseField.Stable.Latest.t)".
Definition j22 := jstr "Curve.Make.Affine.Stable.V1.T".
Definition j23 := jstr "Tuple".
Definition j24 := jstr "Field.t".
Definition j25 := jstr "Zexe_backend.Zexe_backend_common.Stable.Field".
Definition j26 := jstr "Custom".
Definition j27 := JArr [].
Definition j28 := JArr [j26; j27].
Definition j29 := jobj [("source_type_decl", j24); ("source_module_path", j25); ("bin_io_derived", (JBool false)); ("ref_rule", j28)].
Definition j30 := JArr [j10; j29].
Definition j31 := JArr [j9; j30].
Definition j32 := JArr [j31; j31].
Definition j33 := JArr [j23; j32].
Definition j34 := jobj [("source_type_decl", j21); ("source_module_path", j22); ("bin_io_derived", (JBool false)); ("ref_rule", j33)].
Definition j35 := JArr [j10; j34].
Definition j36 := JArr [j9; j35].
Definition j37 := JArr [j20; j36].
Definition j38 := jobj [("field_name", j19); ("field_rule", j37)].
Definition j39 := jstr "sigma_comm_1".
Definition j40 := jobj [("field_name", j39); ("field_rule", j37)].
Definition j41 := jstr "sigma_comm_2".
Definition j42 := jobj [("field_name", j41); ("field_rule", j37)].
Definition j43 := jstr "ql_comm".
Definition j44 := jobj [("field_name", j43); ("field_rule", j37)].
Definition j45 := jstr "qr_comm".
Definition j46 := jobj [("field_name", j45); ("field_rule", j37)].
Definition j47 := jstr "qo_comm".
Definition j48 := jobj [("field_name", j47); ("field_rule", j37)].
Definition j49 := jstr "qm_comm".
Definition j50 := jobj [("field_name", j49); ("field_rule", j37)].
Definition j51 := jstr "qc_comm".
Definition j52 := jobj [("field_name", j51); ("field_rule", j37)].
Definition j53 := jstr "rcm_comm_0".
Definition j54 := jobj [("field_name", j53); ("field_rule", j37)].
Definition j55 := jstr "rcm_comm_1".
Definition j56 := jobj [("field_name", j55); ("field_rule", j37)].
Definition j57 := jstr "rcm_comm_2".
Definition j58 := jobj [("field_name", j57); ("field_rule", j37)].
Definition j59 := jstr "psm_comm".
Definition j60 := jobj [("field_name", j59); ("field_rule", j37)].
Definition j61 := jstr "add_comm".
Definition j62 := jobj [("field_name", j61); ("field_rule", j37)].
Definition j63 := jstr "mul1_comm".
Definition j64 := jobj [("field_name", j63); ("field_rule", j37)].
Definition j65 := jstr "mul2_comm".
Definition j66 := jobj [("field_name", j65); ("field_rule", j37)].
Definition j67 := jstr "emul1_comm".
Definition j68 := jobj [("field_name", j67); ("field_rule", j37)].
Definition j69 := jstr "emul2_comm".
Definition j70 := jobj [("field_name", j69); ("field_rule", j37)].
Definition j71 := jstr "emul3_comm".
Definition j72 := jobj [("field_name", j71); ("field_rule", j37)].
Definition j73 := JArr [j38; j40; j42; j44; j46; j48; j50; j52; j54; j56; j58; j60; j62; j64; j66; j68; j70; j72].
Definition j74 := JArr [j3; j73].
Definition j75 := jobj [("source_type_decl", j17); ("source_module_path", j18); ("bin_io_derived", (JBool true)); ("ref_rule", j74)].
Definition j76 := JArr [j10; j75].
Definition j77 := JArr [j9; j76].
Definition j78 := jobj [("field_name", j8); ("field_rule", j77)].
Definition j79 := JArr [j7; j78].
Definition j80 := JArr [j3; j79].
Definition j81 := jobj [("source_type_decl", j15); ("source_module_path", j16); ("bin_io_derived", (JBool true)); ("ref_rule", j80)].
Definition j82 := JArr [j10; j81].
Definition j83 := JArr [j9; j82].
Definition j84 := jobj [("field_name", j14); ("field_rule", j83)].
Definition j85 := jstr "step_domains".
Definition j86 := jstr "Domains".
Definition j87 := jstr "type t = { h: Domain.Stable.V1.t ; x: Domain.Stable.V1.t }".
Definition j88 := jstr "Domains.Stable.V1".
Definition j89 := jstr "h".
Definition j90 := jstr "Domain".
Definition j91 := jstr "type t = | Pow_2_roots_of_unity of int ".
Definition j92 := jstr "Domain.Stable.V1".
Definition j93 := jstr "Sum".
Definition j94 := jstr "Pow_2_roots_of_unity".
Definition j95 := JArr [j6].
Definition j96 := jobj [("ctor_name", j94); ("index", (JNum (0))); ("ctor_args", j95)].
Definition j97 := JArr [j96].
Definition j98 := JArr [j93; j97].
Definition j99 := jobj [("source_type_decl", j91); ("source_module_path", j92); ("bin_io_derived", (JBool true)); ("ref_rule", j98)].
Definition j100 := JArr [j10; j99].
Definition j101 := JArr [j9; j100].
Definition j102 := jobj [("field_name", j8); ("field_rule", j101)].
Definition j103 := JArr [j7; j102].
Definition j104 := JArr [j3; j103].
Definition j105 := jobj [("source_type_decl", j2); ("source_module_path", j90); ("bin_io_derived", (JBool true)); ("ref_rule", j104)].
Definition j106 := JArr [j10; j105].
Definition j107 := JArr [j9; j106].
Definition j108 := jobj [("field_name", j89); ("field_rule", j107)].
Definition j109 := jstr "x".
Definition j110 := jobj [("field_name", j109); ("field_rule", j107)].
Definition j111 := JArr [j108; j110].
Definition j112 := JArr [j3; j111].
Definition j113 := jobj [("source_type_decl", j87); ("source_module_path", j88); ("bin_io_derived", (JBool true)); ("ref_rule", j112)].
Definition j114 := JArr [j10; j113].
Definition j115 := JArr [j9; j114].
Definition j116 := jobj [("field_name", j8); ("field_rule", j115)].
Definition j117 := JArr [j7; j116].
Definition j118 := JArr [j3; j117].
Definition j119 := jobj [("source_type_decl", j2); ("source_module_path", j86); ("bin_io_derived", (JBool true)); ("ref_rule", j118)].
Definition j120 := JArr [j10; j119].
Definition j121 := JArr [j9; j120].
Definition j122 := JArr [j20; j121].
Definition j123 := jobj [("field_name", j85); ("field_rule", j122)].
Definition j124 := jstr "data".
Definition j125 := jstr "Verification_key.Data".
Definition j126 := jstr "type t = { constraints: int }".
Definition j127 := jstr "Verification_key.Data.Stable.V1".
Definition j128 := jstr "constraints".
Definition j129 := jobj [("field_name", j128); ("field_rule", j6)].
Definition j130 := JArr [j129].
Definition j131 := JArr [j3; j130].
Definition j132 := jobj [("source_type_decl", j126); ("source_module_path", j127); ("bin_io_derived", (JBool true)); ("ref_rule", j131)].
Definition j133 := JArr [j10; j132].
Definition j134 := JArr [j9; j133].
Definition j135 := jobj [("field_name", j8); ("field_rule", j134)].
Definition j136 := JArr [j7; j135].
Definition j137 := JArr [j3; j136].
Definition j138 := jobj [("source_type_decl", j2); ("source_module_path", j125); ("bin_io_derived", (JBool true)); ("ref_rule", j137)].
Definition j139 := JArr [j10; j138].
Definition j140 := JArr [j9; j139].
Definition j141 := jobj [("field_name", j124); ("field_rule", j140)].
Definition j142 := JArr [j84; j123; j141].
Definition j143 := JArr [j3; j142].
Definition j144 := jobj [("source_type_decl", j12); ("source_module_path", j13); ("bin_io_derived", (JBool true)); ("ref_rule", j143)].
Definition j145 := JArr [j10; j144].
Definition j146 := JArr [j9; j145].
Definition j147 := jobj [("field_name", j8); ("field_rule", j146)].
Definition j148 := JArr [j7; j147].
Definition j149 := JArr [j3; j148].
Definition j150 := jobj [("source_type_decl", j2); ("source_module_path", j11); ("bin_io_derived", (JBool false)); ("ref_rule", j149)].
Definition j151 := JArr [j10; j150].
Definition j152 := JArr [j9; j151].
Definition j153 := jobj [("field_name", j8); ("field_rule", j152)].
Definition j154 := JArr [j7; j153].
Definition j155 := JArr [j3; j154].
Definition j156 := jobj [("layout_loc", j0); ("module_path", j1); ("version_opt", (JNum (1))); ("type_decl", j2); ("bin_io_derived", (JBool false)); ("bin_prot_rule", j155)].
Definition j157 := jstr "?".
Definition j158 := jstr "Protocol_state.Value".
Definition j159 := jstr "type ('state_hash, 'body) t = { version: int ; t: ('state_hash, 'body) typ }".
Definition j160 := jstr "Protocol_state.Poly".
Definition j161 := jstr "type ('state_hash, 'body) t = { previous_state_hash: 'state_hash ; body: 'body }".
Definition j162 := jstr "Protocol_state.Poly.Stable.V1".
Definition j163 := jstr "previous_state_hash".
Definition j164 := jstr "State_hash".
Definition j165 := jstr "Tick0.Field.t".
Definition j166 := jstr "Snark_params.Tick".
Definition j167 := jobj [("source_type_decl", j165); ("source_module_path", j166); ("bin_io_derived", (JBool false)); ("ref_rule", j28)].
Definition j168 := JArr [j10; j167].
Definition j169 := JArr [j9; j168].
Definition j170 := jobj [("field_name", j8); ("field_rule", j169)].
Definition j171 := JArr [j7; j170].
Definition j172 := JArr [j3; j171].
Definition j173 := jobj [("source_type_decl", j2); ("source_module_path", j164); ("bin_io_derived", (JBool true)); ("ref_rule", j172)].
Definition j174 := JArr [j10; j173].
Definition j175 := JArr [j9; j174].
Definition j176 := jobj [("field_name", j163); ("field_rule", j175)].
Definition j177 := jstr "body".
Definition j178 := jstr "Protocol_state.Body.Value".
Definition j179 := jstr "type ('state_hash, 'blockchain_state, 'consensus_state, 'constants) t = { version: int ; t: ('state_hash, 'blockchain_state, 'consensus_state, 'constants) typ }".
Definition j180 := jstr "Protocol_state.Body.Poly".
Definition j181 := jstr "type ('state_hash, 'blockchain_state, 'consensus_state, 'constants) t = { genesis_state_hash: 'state_hash ; blockchain_state: 'blockchain_state ; consensus_state: 'consensus_state ; constants: 'constants }".
Definition j182 := jstr "Protocol_state.Body.Poly.Stable.V1".
Definition j183 := jstr "genesis_state_hash".
Definition j184 := jobj [("field_name", j183); ("field_rule", j175)].
Definition j185 := jstr "blockchain_state".
Definition j186 := jstr "Blockchain_state.Value".
Definition j187 := jstr "type ('staged_ledger_hash, 'snarked_ledger_hash, 'token_id, 'time) t = { version: int ; t: ('staged_ledger_hash, 'snarked_ledger_hash, 'token_id, 'time) typ }".
Definition j188 := jstr "Blockchain_state.Poly".
Definition j189 := jstr "type ('staged_ledger_hash, 'snarked_ledger_hash, 'token_id, 'time) t = { staged_ledger_hash: 'staged_ledger_hash ; snarked_ledger_hash: 'snarked_ledger_hash ; genesis_ledger_hash: 'snarked_ledger_hash ; snarked_next_available_token: 'token_id ; timestamp: 'time }".
Definition j190 := jstr "Blockchain_state.Poly.Stable.V1".
Definition j191 := jstr "staged_ledger_hash".
Definition j192 := jstr "Staged_ledger_hash".
Definition j193 := jstr "type ('non_snark, 'pending_coinbase_hash) t = { version: int ; t: ('non_snark, 'pending_coinbase_hash) typ }".
Definition j194 := jstr "Staged_ledger_hash.Poly".
Definition j195 := jstr "type ('non_snark, 'pending_coinbase_hash) t = { non_snark: 'non_snark ; pending_coinbase_hash: 'pending_coinbase_hash }".
Definition j196 := jstr "Staged_ledger_hash.Poly.Stable.V1".
Definition j197 := jstr "non_snark".
Definition j198 := jstr "Staged_ledger_hash.Non_snark".
Definition j199 := jstr "type t = { ledger_hash: Ledger_hash.Stable.V1.t ; aux_hash: Aux_hash.Stable.V1.t ; pending_coinbase_aux: Pending_coinbase_aux.Stable.V1.t }".
Definition j200 := jstr "Staged_ledger_hash.Non_snark.Stable.V1".
Definition j201 := jstr "ledger_hash".
Definition j202 := jstr "Ledger_hash0".
Definition j203 := jobj [("source_type_decl", j2); ("source_module_path", j202); ("bin_io_derived", (JBool true)); ("ref_rule", j172)].
Definition j204 := JArr [j10; j203].
Definition j205 := JArr [j9; j204].
Definition j206 := jobj [("field_name", j201); ("field_rule", j205)].
Definition j207 := jstr "aux_hash".
Definition j208 := jstr "Staged_ledger_hash.Aux_hash".
Definition j209 := jstr "type t = string".
Definition j210 := jstr "Staged_ledger_hash.Aux_hash.Stable.V1".
Definition j211 := jstr "String".
Definition j212 := JArr [j211].
Definition j213 := jobj [("source_type_decl", j209); ("source_module_path", j210); ("bin_io_derived", (JBool true)); ("ref_rule", j212)].
Definition j214 := JArr [j10; j213].
Definition j215 := JArr [j9; j214].
Definition j216 := jobj [("field_name", j8); ("field_rule", j215)].
Definition j217 := JArr [j7; j216].
Definition j218 := JArr [j3; j217].
Definition j219 := jobj [("source_type_decl", j2); ("source_module_path", j208); ("bin_io_derived", (JBool true)); ("ref_rule", j218)].
Definition j220 := JArr [j10; j219].
Definition j221 := JArr [j9; j220].
Definition j222 := jobj [("field_name", j207); ("field_rule", j221)].
Definition j223 := jstr "pending_coinbase_aux".
Definition j224 := jstr "Staged_ledger_hash.Pending_coinbase_aux".
Definition j225 := jstr "Staged_ledger_hash.Pending_coinbase_aux.Stable.V1".
Definition j226 := jobj [("source_type_decl", j209); ("source_module_path", j225); ("bin_io_derived", (JBool true)); ("ref_rule", j212)].
Definition j227 := JArr [j10; j226].
Definition j228 := JArr [j9; j227].
Definition j229 := jobj [("field_name", j8); ("field_rule", j228)].
Definition j230 := JArr [j7; j229].
Definition j231 := JArr [j3; j230].
Definition j232 := jobj [("source_type_decl", j2); ("source_module_path", j224); ("bin_io_derived", (JBool true)); ("ref_rule", j231)].
Definition j233 := JArr [j10; j232].
Definition j234 := JArr [j9; j233].
Definition j235 := jobj [("field_name", j223); ("field_rule", j234)].
Definition j236 := JArr [j206; j222; j235].
Definition j237 := JArr [j3; j236].
Definition j238 := jobj [("source_type_decl", j199); ("source_module_path", j200); ("bin_io_derived", (JBool true)); ("ref_rule", j237)].
Definition j239 := JArr [j10; j238].
Definition j240 := JArr [j9; j239].
Definition j241 := jobj [("field_name", j8); ("field_rule", j240)].
Definition j242 := JArr [j7; j241].
Definition j243 := JArr [j3; j242].
Definition j244 := jobj [("source_type_decl", j2); ("source_module_path", j198); ("bin_io_derived", (JBool true)); ("ref_rule", j243)].
Definition j245 := JArr [j10; j244].
Definition j246 := JArr [j9; j245].
Definition j247 := jobj [("field_name", j197); ("field_rule", j246)].
Definition j248 := jstr "pending_coinbase_hash".
Definition j249 := jstr "Pending_coinbase.Hash_versioned".
Definition j250 := jstr "Pending_coinbase.Hash_builder".
Definition j251 := jobj [("source_type_decl", j2); ("source_module_path", j250); ("bin_io_derived", (JBool true)); ("ref_rule", j172)].
Definition j252 := JArr [j10; j251].
Definition j253 := JArr [j9; j252].
Definition j254 := jobj [("field_name", j8); ("field_rule", j253)].
Definition j255 := JArr [j7; j254].
Definition j256 := JArr [j3; j255].
Definition j257 := jobj [("source_type_decl", j2); ("source_module_path", j249); ("bin_io_derived", (JBool true)); ("ref_rule", j256)].
Definition j258 := JArr [j10; j257].
Definition j259 := JArr [j9; j258].
Definition j260 := jobj [("field_name", j248); ("field_rule", j259)].
Definition j261 := JArr [j247; j260].
Definition j262 := JArr [j3; j261].
Definition j263 := jobj [("source_type_decl", j195); ("source_module_path", j196); ("bin_io_derived", (JBool true)); ("ref_rule", j262)].
Definition j264 := JArr [j10; j263].
Definition j265 := JArr [j9; j264].
Definition j266 := jobj [("field_name", j8); ("field_rule", j265)].
Definition j267 := JArr [j7; j266].
Definition j268 := JArr [j3; j267].
Definition j269 := jobj [("source_type_decl", j193); ("source_module_path", j194); ("bin_io_derived", (JBool true)); ("ref_rule", j268)].
Definition j270 := JArr [j10; j269].
Definition j271 := JArr [j9; j270].
Definition j272 := jobj [("field_name", j8); ("field_rule", j271)].
Definition j273 := JArr [j7; j272].
Definition j274 := JArr [j3; j273].
Definition j275 := jobj [("source_type_decl", j2); ("source_module_path", j192); ("bin_io_derived", (JBool true)); ("ref_rule", j274)].
Definition j276 := JArr [j10; j275].
Definition j277 := JArr [j9; j276].
Definition j278 := jobj [("field_name", j191); ("field_rule", j277)].
Definition j279 := jstr "snarked_ledger_hash".
Definition j280 := jobj [("field_name", j279); ("field_rule", j205)].
Definition j281 := jstr "genesis_ledger_hash".
Definition j282 := jobj [("field_name", j281); ("field_rule", j205)].
Definition j283 := jstr "snarked_next_available_token".
Definition j284 := jstr "Token_id".
Definition j285 := jstr "Nat.Make64".
Definition j286 := jstr "Unsigned_extended.UInt64".
Definition j287 := jstr "Unsigned.UInt64.t".
Definition j288 := jstr "Int64".
Definition j289 := JArr [j288].
Definition j290 := jobj [("source_type_decl", j287); ("source_module_path", j286); ("bin_io_derived", (JBool false)); ("ref_rule", j289)].
Definition j291 := JArr [j10; j290].
Definition j292 := JArr [j9; j291].
Definition j293 := jobj [("field_name", j8); ("field_rule", j292)].
Definition j294 := JArr [j7; j293].
Definition j295 := JArr [j3; j294].
Definition j296 := jobj [("source_type_decl", j2); ("source_module_path", j286); ("bin_io_derived", (JBool false)); ("ref_rule", j295)].
Definition j297 := JArr [j10; j296].
Definition j298 := JArr [j9; j297].
Definition j299 := jobj [("field_name", j8); ("field_rule", j298)].
Definition j300 := JArr [j7; j299].
Definition j301 := JArr [j3; j300].
Definition j302 := jobj [("source_type_decl", j2); ("source_module_path", j285); ("bin_io_derived", (JBool false)); ("ref_rule", j301)].
Definition j303 := JArr [j10; j302].
Definition j304 := JArr [j9; j303].
Definition j305 := jobj [("field_name", j8); ("field_rule", j304)].
Definition j306 := JArr [j7; j305].
Definition j307 := JArr [j3; j306].
Definition j308 := jobj [("source_type_decl", j2); ("source_module_path", j284); ("bin_io_derived", (JBool false)); ("ref_rule", j307)].
Definition j309 := JArr [j10; j308].
Definition j310 := JArr [j9; j309].
Definition j311 := jobj [("field_name", j283); ("field_rule", j310)].
Definition j312 := jstr "timestamp".
Definition j313 := jstr "Block_time.Time".
Definition j314 := jobj [("source_type_decl", j2); ("source_module_path", j313); ("bin_io_derived", (JBool true)); ("ref_rule", j301)].
Definition j315 := JArr [j10; j314].
Definition j316 := JArr [j9; j315].
Definition j317 := jobj [("field_name", j312); ("field_rule", j316)].
Definition j318 := JArr [j278; j280; j282; j311; j317].
Definition j319 := JArr [j3; j318].
Definition j320 := jobj [("source_type_decl", j189); ("source_module_path", j190); ("bin_io_derived", (JBool true)); ("ref_rule", j319)].
Definition j321 := JArr [j10; j320].
Definition j322 := JArr [j9; j321].
Definition j323 := jobj [("field_name", j8); ("field_rule", j322)].
Definition j324 := JArr [j7; j323].
Definition j325 := JArr [j3; j324].
Definition j326 := jobj [("source_type_decl", j187); ("source_module_path", j188); ("bin_io_derived", (JBool true)); ("ref_rule", j325)].
Definition j327 := JArr [j10; j326].
Definition j328 := JArr [j9; j327].
Definition j329 := jobj [("field_name", j8); ("field_rule", j328)].
Definition j330 := JArr [j7; j329].
Definition j331 := JArr [j3; j330].
Definition j332 := jobj [("source_type_decl", j2); ("source_module_path", j186); ("bin_io_derived", (JBool true)); ("ref_rule", j331)].
Definition j333 := JArr [j10; j332].
Definition j334 := JArr [j9; j333].
Definition j335 := jobj [("field_name", j185); ("field_rule", j334)].
Definition j336 := jstr "consensus_state".
Definition j337 := jstr "Proof_of_stake.Data.Consensus_state.Value".
Definition j338 := jstr "type ('length, 'vrf_output, 'amount, 'global_slot, 'global_slot_since_genesis, 'staking_epoch_data, 'next_epoch_data,  'bool, 'pk) t = { version: int ; t: ('length, 'vrf_output, 'amount, 'global_slot, 'global_slot_since_genesis, 'staking_epoch_data, 'next_epoch_data, 'bool, 'pk) typ }".
Definition j339 := jstr "Proof_of_stake.Data.Consensus_state.Poly".
Definition j340 := jstr "type ('length, 'vrf_output, 'amount, 'global_slot, 'global_slot_since_genesis, 'staking_epoch_data, 'next_epoch_data,  'bool, 'pk) t = { blockchain_length: 'length ; epoch_count: 'length ; min_window_density: 'length ; sub_window_densities: 'length list ; last_vrf_output: 'vrf_output ; total_currency: 'amount ; curr_global_slot: 'global_slot ; global_slot_since_genesis: 'global_slot_since_genesis ; staking_epoch_data: 'staking_epoch_data ; next_epoch_data: 'next_epoch_data ; has_ancestor_in_same_checkpoint_window: 'bool ; block_stake_winner: 'pk ; block_creator: 'pk ; coinbase_receiver: 'pk ; supercharge_coinbase: 'bool }".
Definition j341 := jstr "Proof_of_stake.Data.Consensus_state.Poly.Stable.V1".
Definition j342 := jstr "blockchain_length".
Definition j343 := jstr "Nat.Make32".
Definition j344 := jstr "Unsigned_extended.UInt32".
Definition j345 := jstr "Unsigned.UInt32.t".
Definition j346 := jstr "Int32".
Definition j347 := JArr [j346].
Definition j348 := jobj [("source_type_decl", j345); ("source_module_path", j344); ("bin_io_derived", (JBool false)); ("ref_rule", j347)].
Definition j349 := JArr [j10; j348].
Definition j350 := JArr [j9; j349].
Definition j351 := jobj [("field_name", j8); ("field_rule", j350)].
Definition j352 := JArr [j7; j351].
Definition j353 := JArr [j3; j352].
Definition j354 := jobj [("source_type_decl", j2); ("source_module_path", j344); ("bin_io_derived", (JBool false)); ("ref_rule", j353)].
Definition j355 := JArr [j10; j354].
Definition j356 := JArr [j9; j355].
Definition j357 := jobj [("field_name", j8); ("field_rule", j356)].
Definition j358 := JArr [j7; j357].
Definition j359 := JArr [j3; j358].
Definition j360 := jobj [("source_type_decl", j2); ("source_module_path", j343); ("bin_io_derived", (JBool true)); ("ref_rule", j359)].
Definition j361 := JArr [j10; j360].
Definition j362 := JArr [j9; j361].
Definition j363 := jobj [("field_name", j342); ("field_rule", j362)].
Definition j364 := jstr "epoch_count".
Definition j365 := jobj [("field_name", j364); ("field_rule", j362)].
Definition j366 := jstr "min_window_density".
Definition j367 := jobj [("field_name", j366); ("field_rule", j362)].
Definition j368 := jstr "sub_window_densities".
Definition j369 := JArr [j20; j362].
Definition j370 := jobj [("field_name", j368); ("field_rule", j369)].
Definition j371 := jstr "last_vrf_output".
Definition j372 := jstr "Proof_of_stake.Data.Vrf.Output.Truncated".
Definition j373 := jstr "Proof_of_stake.Data.Vrf.Output.Truncated.Stable.V1".
Definition j374 := jobj [("source_type_decl", j209); ("source_module_path", j373); ("bin_io_derived", (JBool true)); ("ref_rule", j212)].
Definition j375 := JArr [j10; j374].
Definition j376 := JArr [j9; j375].
Definition j377 := jobj [("field_name", j8); ("field_rule", j376)].
Definition j378 := JArr [j7; j377].
Definition j379 := JArr [j3; j378].
Definition j380 := jobj [("source_type_decl", j2); ("source_module_path", j372); ("bin_io_derived", (JBool true)); ("ref_rule", j379)].
Definition j381 := JArr [j10; j380].
Definition j382 := JArr [j9; j381].
Definition j383 := jobj [("field_name", j371); ("field_rule", j382)].
Definition j384 := jstr "total_currency".
Definition j385 := jstr "Currency.Amount".
Definition j386 := jobj [("source_type_decl", j2); ("source_module_path", j385); ("bin_io_derived", (JBool true)); ("ref_rule", j301)].
Definition j387 := JArr [j10; j386].
Definition j388 := JArr [j9; j387].
Definition j389 := jobj [("field_name", j384); ("field_rule", j388)].
Definition j390 := jstr "curr_global_slot".
Definition j391 := jstr "Global_slot".
Definition j392 := jstr "type ('slot_number, 'slots_per_epoch) t = { version: int ; t: ('slot_number, 'slots_per_epoch) typ }".
Definition j393 := jstr "Global_slot.Poly".
Definition j394 := jstr "type ('slot_number, 'slots_per_epoch) t = { slot_number: 'slot_number ; slots_per_epoch: 'slots_per_epoch }".
Definition j395 := jstr "Global_slot.Poly.Stable.V1".
Definition j396 := jstr "slot_number".
Definition j397 := jobj [("field_name", j396); ("field_rule", j362)].
Definition j398 := jstr "slots_per_epoch".
Definition j399 := jobj [("field_name", j398); ("field_rule", j362)].
Definition j400 := JArr [j397; j399].
Definition j401 := JArr [j3; j400].
Definition j402 := jobj [("source_type_decl", j394); ("source_module_path", j395); ("bin_io_derived", (JBool true)); ("ref_rule", j401)].
Definition j403 := JArr [j10; j402].
Definition j404 := JArr [j9; j403].
Definition j405 := jobj [("field_name", j8); ("field_rule", j404)].
Definition j406 := JArr [j7; j405].
Definition j407 := JArr [j3; j406].
Definition j408 := jobj [("source_type_decl", j392); ("source_module_path", j393); ("bin_io_derived", (JBool true)); ("ref_rule", j407)].
Definition j409 := JArr [j10; j408].
Definition j410 := JArr [j9; j409].
Definition j411 := jobj [("field_name", j8); ("field_rule", j410)].
Definition j412 := JArr [j7; j411].
Definition j413 := JArr [j3; j412].
Definition j414 := jobj [("source_type_decl", j2); ("source_module_path", j391); ("bin_io_derived", (JBool true)); ("ref_rule", j413)].
Definition j415 := JArr [j10; j414].
Definition j416 := JArr [j9; j415].
Definition j417 := jobj [("field_name", j390); ("field_rule", j416)].
Definition j418 := jstr "global_slot_since_genesis".
Definition j419 := jobj [("field_name", j418); ("field_rule", j362)].
Definition j420 := jstr "staking_epoch_data".
Definition j421 := jstr "Proof_of_stake.Data.Epoch_data.Staking_value_versioned.Value".
Definition j422 := jstr "type ('epoch_ledger, 'epoch_seed, 'start_checkpoint, 'lock_checkpoint, 'length) t = { version: int ; t: ('epoch_ledger, 'epoch_seed, 'start_checkpoint, 'lock_checkpoint, 'length) typ }".
Definition j423 := jstr "Epoch_data.Poly".
Definition j424 := jstr "type ('epoch_ledger, 'epoch_seed, 'start_checkpoint, 'lock_checkpoint, 'length) t = { ledger: 'epoch_ledger ; seed: 'epoch_seed ; start_checkpoint: 'start_checkpoint ; lock_checkpoint: 'lock_checkpoint ; epoch_length: 'length }".
Definition j425 := jstr "Epoch_data.Poly.Stable.V1".
Definition j426 := jstr "ledger".
Definition j427 := jstr "Epoch_ledger.Value".
Definition j428 := jstr "type ('ledger_hash, 'amount) t = { version: int ; t: ('ledger_hash, 'amount) typ }".
Definition j429 := jstr "Epoch_ledger.Poly".
Definition j430 := jstr "type ('ledger_hash, 'amount) t = { hash: 'ledger_hash ; total_currency: 'amount }".
Definition j431 := jstr "Epoch_ledger.Poly.Stable.V1".
Definition j432 := jstr "hash".
Definition j433 := jobj [("field_name", j432); ("field_rule", j205)].
Definition j434 := JArr [j433; j389].
Definition j435 := JArr [j3; j434].
Definition j436 := jobj [("source_type_decl", j430); ("source_module_path", j431); ("bin_io_derived", (JBool true)); ("ref_rule", j435)].
Definition j437 := JArr [j10; j436].
Definition j438 := JArr [j9; j437].
Definition j439 := jobj [("field_name", j8); ("field_rule", j438)].
Definition j440 := JArr [j7; j439].
Definition j441 := JArr [j3; j440].
Definition j442 := jobj [("source_type_decl", j428); ("source_module_path", j429); ("bin_io_derived", (JBool true)); ("ref_rule", j441)].
Definition j443 := JArr [j10; j442].
Definition j444 := JArr [j9; j443].
Definition j445 := jobj [("field_name", j8); ("field_rule", j444)].
Definition j446 := JArr [j7; j445].
Definition j447 := JArr [j3; j446].
Definition j448 := jobj [("source_type_decl", j2); ("source_module_path", j427); ("bin_io_derived", (JBool true)); ("ref_rule", j447)].
Definition j449 := JArr [j10; j448].
Definition j450 := JArr [j9; j449].
Definition j451 := jobj [("field_name", j426); ("field_rule", j450)].
Definition j452 := jstr "seed".
Definition j453 := jstr "Epoch_seed".
Definition j454 := jobj [("source_type_decl", j2); ("source_module_path", j453); ("bin_io_derived", (JBool true)); ("ref_rule", j172)].
Definition j455 := JArr [j10; j454].
Definition j456 := JArr [j9; j455].
Definition j457 := jobj [("field_name", j452); ("field_rule", j456)].
Definition j458 := jstr "start_checkpoint".
Definition j459 := jobj [("field_name", j458); ("field_rule", j175)].
Definition j460 := jstr "lock_checkpoint".
Definition j461 := jobj [("field_name", j460); ("field_rule", j175)].
Definition j462 := jstr "epoch_length".
Definition j463 := jobj [("field_name", j462); ("field_rule", j362)].
Definition j464 := JArr [j451; j457; j459; j461; j463].
Definition j465 := JArr [j3; j464].
Definition j466 := jobj [("source_type_decl", j424); ("source_module_path", j425); ("bin_io_derived", (JBool true)); ("ref_rule", j465)].
Definition j467 := JArr [j10; j466].
Definition j468 := JArr [j9; j467].
Definition j469 := jobj [("field_name", j8); ("field_rule", j468)].
Definition j470 := JArr [j7; j469].
Definition j471 := JArr [j3; j470].
Definition j472 := jobj [("source_type_decl", j422); ("source_module_path", j423); ("bin_io_derived", (JBool true)); ("ref_rule", j471)].
Definition j473 := JArr [j10; j472].
Definition j474 := JArr [j9; j473].
Definition j475 := jobj [("field_name", j8); ("field_rule", j474)].
Definition j476 := JArr [j7; j475].
Definition j477 := JArr [j3; j476].
Definition j478 := jobj [("source_type_decl", j2); ("source_module_path", j421); ("bin_io_derived", (JBool true)); ("ref_rule", j477)].
Definition j479 := JArr [j10; j478].
Definition j480 := JArr [j9; j479].
Definition j481 := jobj [("field_name", j420); ("field_rule", j480)].
Definition j482 := jstr "next_epoch_data".
Definition j483 := jstr "Proof_of_stake.Data.Epoch_data.Next_value_versioned.Value".
Definition j484 := jobj [("source_type_decl", j2); ("source_module_path", j483); ("bin_io_derived", (JBool true)); ("ref_rule", j477)].
Definition j485 := JArr [j10; j484].
Definition j486 := JArr [j9; j485].
Definition j487 := jobj [("field_name", j482); ("field_rule", j486)].
Definition j488 := jstr "has_ancestor_in_same_checkpoint_window".
Definition j489 := jstr "Bool".
Definition j490 := JArr [j489].
Definition j491 := jobj [("field_name", j488); ("field_rule", j490)].
Definition j492 := jstr "block_stake_winner".
Definition j493 := jstr "Non_zero_curve_point.Compressed".
Definition j494 := jstr "type ('field, 'boolean) t = { version: int ; t: ('field, 'boolean) typ }".
Definition j495 := jstr "Compressed_poly.Poly".
Definition j496 := jstr "type ('field, 'boolean) t = { x: 'field ; is_odd: 'boolean }".
Definition j497 := jstr "Compressed_poly.Poly.Stable.V1".
Definition j498 := jobj [("field_name", j109); ("field_rule", j169)].
Definition j499 := jstr "is_odd".
Definition j500 := jobj [("field_name", j499); ("field_rule", j490)].
Definition j501 := JArr [j498; j500].
Definition j502 := JArr [j3; j501].
Definition j503 := jobj [("source_type_decl", j496); ("source_module_path", j497); ("bin_io_derived", (JBool true)); ("ref_rule", j502)].
Definition j504 := JArr [j10; j503].
Definition j505 := JArr [j9; j504].
Definition j506 := jobj [("field_name", j8); ("field_rule", j505)].
Definition j507 := JArr [j7; j506].
Definition j508 := JArr [j3; j507].
Definition j509 := jobj [("source_type_decl", j494); ("source_module_path", j495); ("bin_io_derived", (JBool true)); ("ref_rule", j508)].
Definition j510 := JArr [j10; j509].
Definition j511 := JArr [j9; j510].
Definition j512 := jobj [("field_name", j8); ("field_rule", j511)].
Definition j513 := JArr [j7; j512].
Definition j514 := JArr [j3; j513].
Definition j515 := jobj [("source_type_decl", j2); ("source_module_path", j493); ("bin_io_derived", (JBool false)); ("ref_rule", j514)].
Definition j516 := JArr [j10; j515].
Definition j517 := JArr [j9; j516].
Definition j518 := jobj [("field_name", j492); ("field_rule", j517)].
Definition j519 := jstr "block_creator".
Definition j520 := jobj [("field_name", j519); ("field_rule", j517)].
Definition j521 := jstr "coinbase_receiver".
Definition j522 := jobj [("field_name", j521); ("field_rule", j517)].
Definition j523 := jstr "supercharge_coinbase".
Definition j524 := jobj [("field_name", j523); ("field_rule", j490)].
Definition j525 := JArr [j363; j365; j367; j370; j383; j389; j417; j419; j481; j487; j491; j518; j520; j522; j524].
Definition j526 := JArr [j3; j525].
Definition j527 := jobj [("source_type_decl", j340); ("source_module_path", j341); ("bin_io_derived", (JBool true)); ("ref_rule", j526)].
Definition j528 := JArr [j10; j527].
Definition j529 := JArr [j9; j528].
Definition j530 := jobj [("field_name", j8); ("field_rule", j529)].
Definition j531 := JArr [j7; j530].
Definition j532 := JArr [j3; j531].
Definition j533 := jobj [("source_type_decl", j338); ("source_module_path", j339); ("bin_io_derived", (JBool true)); ("ref_rule", j532)].
Definition j534 := JArr [j10; j533].
Definition j535 := JArr [j9; j534].
Definition j536 := jobj [("field_name", j8); ("field_rule", j535)].
Definition j537 := JArr [j7; j536].
Definition j538 := JArr [j3; j537].
Definition j539 := jobj [("source_type_decl", j2); ("source_module_path", j337); ("bin_io_derived", (JBool true)); ("ref_rule", j538)].
Definition j540 := JArr [j10; j539].
Definition j541 := JArr [j9; j540].
Definition j542 := jobj [("field_name", j336); ("field_rule", j541)].
Definition j543 := jstr "constants".
Definition j544 := jstr "Protocol_constants_checked.Value".
Definition j545 := jstr "type ('length, 'delta, 'genesis_state_timestamp) t = { version: int ; t: ('length, 'delta, 'genesis_state_timestamp) typ }".
Definition j546 := jstr "Genesis_constants.Protocol.Poly".
Definition j547 := jstr "type ('length, 'delta, 'genesis_state_timestamp) t = { k: 'length ; slots_per_epoch: 'length ; slots_per_sub_window: 'length ; delta: 'delta ; genesis_state_timestamp: 'genesis_state_timestamp }".
Definition j548 := jstr "Genesis_constants.Protocol.Poly.Stable.V1".
Definition j549 := jstr "k".
Definition j550 := jobj [("field_name", j549); ("field_rule", j362)].
Definition j551 := jstr "slots_per_sub_window".
Definition j552 := jobj [("field_name", j551); ("field_rule", j362)].
Definition j553 := jstr "delta".
Definition j554 := jobj [("field_name", j553); ("field_rule", j362)].
Definition j555 := jstr "genesis_state_timestamp".
Definition j556 := jobj [("field_name", j555); ("field_rule", j316)].
Definition j557 := JArr [j550; j399; j552; j554; j556].
Definition j558 := JArr [j3; j557].
Definition j559 := jobj [("source_type_decl", j547); ("source_module_path", j548); ("bin_io_derived", (JBool true)); ("ref_rule", j558)].
Definition j560 := JArr [j10; j559].
Definition j561 := JArr [j9; j560].
Definition j562 := jobj [("field_name", j8); ("field_rule", j561)].
Definition j563 := JArr [j7; j562].
Definition j564 := JArr [j3; j563].
Definition j565 := jobj [("source_type_decl", j545); ("source_module_path", j546); ("bin_io_derived", (JBool true)); ("ref_rule", j564)].
Definition j566 := JArr [j10; j565].
Definition j567 := JArr [j9; j566].
Definition j568 := jobj [("field_name", j8); ("field_rule", j567)].
Definition j569 := JArr [j7; j568].
Definition j570 := JArr [j3; j569].
Definition j571 := jobj [("source_type_decl", j2); ("source_module_path", j544); ("bin_io_derived", (JBool true)); ("ref_rule", j570)].
Definition j572 := JArr [j10; j571].
Definition j573 := JArr [j9; j572].
Definition j574 := jobj [("field_name", j543); ("field_rule", j573)].
Definition j575 := JArr [j184; j335; j542; j574].
Definition j576 := JArr [j3; j575].
Definition j577 := jobj [("source_type_decl", j181); ("source_module_path", j182); ("bin_io_derived", (JBool true)); ("ref_rule", j576)].
Definition j578 := JArr [j10; j577].
Definition j579 := JArr [j9; j578].
Definition j580 := jobj [("field_name", j8); ("field_rule", j579)].
Definition j581 := JArr [j7; j580].
Definition j582 := JArr [j3; j581].
Definition j583 := jobj [("source_type_decl", j179); ("source_module_path", j180); ("bin_io_derived", (JBool true)); ("ref_rule", j582)].
Definition j584 := JArr [j10; j583].
Definition j585 := JArr [j9; j584].
Definition j586 := jobj [("field_name", j8); ("field_rule", j585)].
Definition j587 := JArr [j7; j586].
Definition j588 := JArr [j3; j587].
Definition j589 := jobj [("source_type_decl", j2); ("source_module_path", j178); ("bin_io_derived", (JBool true)); ("ref_rule", j588)].
Definition j590 := JArr [j10; j589].
Definition j591 := JArr [j9; j590].
Definition j592 := jobj [("field_name", j177); ("field_rule", j591)].
Definition j593 := JArr [j176; j592].
Definition j594 := JArr [j3; j593].
Definition j595 := jobj [("source_type_decl", j161); ("source_module_path", j162); ("bin_io_derived", (JBool true)); ("ref_rule", j594)].
Definition j596 := JArr [j10; j595].
Definition j597 := JArr [j9; j596].
Definition j598 := jobj [("field_name", j8); ("field_rule", j597)].
Definition j599 := JArr [j7; j598].
Definition j600 := JArr [j3; j599].
Definition j601 := jobj [("source_type_decl", j159); ("source_module_path", j160); ("bin_io_derived", (JBool true)); ("ref_rule", j600)].
Definition j602 := JArr [j10; j601].
Definition j603 := JArr [j9; j602].
Definition j604 := jobj [("field_name", j8); ("field_rule", j603)].
Definition j605 := JArr [j7; j604].
Definition j606 := JArr [j3; j605].
Definition j607 := jobj [("layout_loc", j157); ("module_path", j158); ("version_opt", (JNum (1))); ("type_decl", j2); ("bin_io_derived", (JBool true)); ("bin_prot_rule", j606)].
Definition j608 := jstr "File ""src/lib/mina_transition/external_transition.ml"", line 39, characters 6-540:".
Definition j609 := jstr "External_transition.Raw_versioned__".
Definition j610 := jstr "type t = { protocol_state: Protocol_state.Value.Stable.V1.t ; protocol_state_proof: Proof.Stable.V1.t sexp_opaque ; staged_ledger_diff: Staged_ledger_diff.Stable.V1.t ; delta_transition_chain_proof: (State_hash.Stable.V1.t * State_body_hash.Stable.V1.t list) ; current_protocol_version: Protocol_version.Stable.V1.t ; proposed_protocol_version_opt: Protocol_version.Stable.V1.t option ; mutable validation_callback: Validate_content.t }".
Definition j611 := jstr "External_transition.Raw_versioned__.Stable.V1".
Definition j612 := jstr "protocol_state".
Definition j613 := jobj [("source_type_decl", j2); ("source_module_path", j158); ("bin_io_derived", (JBool true)); ("ref_rule", j606)].
Definition j614 := JArr [j10; j613].
Definition j615 := JArr [j9; j614].
Definition j616 := jobj [("field_name", j612); ("field_rule", j615)].
Definition j617 := jstr "protocol_state_proof".
Definition j618 := jstr "Proof".
Definition j619 := jstr "Proof.Branching_2".
Definition j620 := jstr "Proof.Branching_2.Repr".
Definition j621 := jstr "type ('dlog_me_only, 'pairing_me_only) t = { version: int ; t: ('dlog_me_only, 'pairing_me_only) typ }".
Definition j622 := jstr "Proof.Base.Dlog_based".
Definition j623 := jstr "type ('dlog_me_only, 'pairing_me_only) t = { statement: (Limb_vector.Constant.Hex64.Stable.V1.t Vector.Vector_2.Stable.V1.t, Limb_vector.Constant.Hex64.Stable.V1.t Vector.Vector_2.Stable.V1.t Scalar_challenge.Stable.V1.t, Tick.Field.Stable.V1.t Shifted_value.Stable.V1.t, Tock.Field.Stable.V1.t, 'dlog_me_only, Digest.Constant.Stable.V1.t, 'pairing_me_only, Limb_vector.Constant.Hex64.Stable.V1.t Vector.Vector_2.Stable.V1.t Scalar_challenge.Stable.V1.t Bulletproof_challenge.Stable.V1.t Step_bp_vec.Stable.V1.t, Index.Stable.V1.t) Types.Dlog_based.Statement.Minimal.Stable.V1.t ; prev_evals: Tick.Field.Stable.V1.t Dlog_plonk_types.Pc_array.Stable.V1.t Dlog_plonk_types.Evals.Stable.V1.t Double.Stable.V1.t ; prev_x_hat: Tick.Field.Stable.V1.t Double.Stable.V1.t ; proof: Tock.Proof.Stable.V1.t }".
Definition j624 := jstr "Proof.Base.Dlog_based.Stable.V1".
Definition j625 := jstr "statement".
Definition j626 := jstr "type ('challenge, 'scalar_challenge, 'fp, 'fq, 'me_only, 'digest, 'pass_through, 'bp_chals, 'index) t = { version: int ; t: ('challenge, 'scalar_challenge, 'fp, 'fq, 'me_only, 'digest, 'pass_through, 'bp_chals, 'index) typ }".
Definition j627 := jstr "Composition_types.Dlog_based.Statement.Minimal".
Definition j628 := jstr "type ('plonk, 'scalar_challenge, 'fp, 'fq, 'me_only, 'digest, 'pass_through, 'bp_chals, 'index) t = { version: int ; t: ('plonk, 'scalar_challenge, 'fp, 'fq, 'me_only, 'digest, 'pass_through, 'bp_chals, 'index) typ }".
Definition j629 := jstr "Composition_types.Dlog_based.Statement".
Definition j630 := jstr "type ('plonk, 'scalar_challenge, 'fp, 'fq, 'me_only, 'digest, 'pass_through, 'bp_chals, 'index) t = { proof_state: ('plonk, 'scalar_challenge, 'fp, 'fq, 'me_only, 'digest, 'bp_chals, 'index) Proof_state.Stable.V1.t ; pass_through: 'pass_through }".
Definition j631 := jstr "Composition_types.Dlog_based.Statement.Stable.V1".
Definition j632 := jstr "proof_state".
Definition j633 := jstr "type ('plonk, 'scalar_challenge, 'fp, 'fq, 'me_only, 'digest, 'bp_chals, 'index) t = { version: int ; t: ('plonk, 'scalar_challenge, 'fp, 'fq, 'me_only, 'digest, 'bp_chals, 'index) typ }".
Definition j634 := jstr "Composition_types.Dlog_based.Proof_state".
Definition j635 := jstr "type ('plonk, 'scalar_challenge, 'fp, 'fq, 'me_only, 'digest, 'bp_chals, 'index) t = { deferred_values: ('plonk, 'scalar_challenge, 'fp, 'fq, 'bp_chals, 'index) Deferred_values.Stable.V1.t ; sponge_digest_before_evaluations: 'digest ; me_only: 'me_only }".
Definition j636 := jstr "Composition_types.Dlog_based.Proof_state.Stable.V1".
Definition j637 := jstr "deferred_values".
Definition j638 := jstr "type ('plonk, 'scalar_challenge, 'fp, 'fq, 'bulletproof_challenges, 'index) t = { version: int ; t: ('plonk, 'scalar_challenge, 'fp, 'fq, 'bulletproof_challenges, 'index) typ }".
Definition j639 := jstr "Composition_types.Dlog_based.Proof_state.Deferred_values".
Definition j640 := jstr "type ('plonk, 'scalar_challenge, 'fp, 'fq, 'bulletproof_challenges, 'index) t = { plonk: 'plonk ; combined_inner_product: 'fp ; b: 'fp ; xi: 'scalar_challenge ; bulletproof_challenges: 'bulletproof_challenges ; which_branch: 'index }".
Definition j641 := jstr "Composition_types.Dlog_based.Proof_state.Deferred_values.Stable.V1".
Definition j642 := jstr "plonk".
Definition j643 := jstr "type ('challenge, 'scalar_challenge) t = { version: int ; t: ('challenge, 'scalar_challenge) typ }".
Definition j644 := jstr "Composition_types.Dlog_based.Proof_state.Deferred_values.Plonk.Minimal".
Definition j645 := jstr "type ('challenge, 'scalar_challenge) t = { alpha: 'scalar_challenge ; beta: 'challenge ; gamma: 'challenge ; zeta: 'scalar_challenge }".
Definition j646 := jstr "Composition_types.Dlog_based.Proof_state.Deferred_values.Plonk.Minimal.Stable.V1".
Definition j647 := jstr "alpha".
Definition j648 := jstr "type 'f t = { version: int ; t: 'f typ }".
Definition j649 := jstr "Scalar_challenge".
Definition j650 := jstr "type 'f t = 'f Marlin_plonk_bindings_types.Scalar_challenge.t = | Scalar_challenge of 'f ".
Definition j651 := jstr "Scalar_challenge.Stable.V1".
Definition j652 := jstr "type 'a t = { version: int ; t: 'a typ }".
Definition j653 := jstr "Vector.Vector_2".
Definition j654 := jstr "'a t = ('a, Nat.N2.n) vec".
Definition j655 := jstr "Pickles_type.Vector.Vector2".
Definition j656 := jstr "Constant.Hex64".
Definition j657 := jstr "Core_kernel.Int64.t".
Definition j658 := jstr "[manually-created layout]".
Definition j659 := jobj [("source_type_decl", j657); ("source_module_path", j658); ("bin_io_derived", (JBool true)); ("ref_rule", j289)].
Definition j660 := JArr [j10; j659].
Definition j661 := JArr [j9; j660].
Definition j662 := jobj [("field_name", j8); ("field_rule", j661)].
Definition j663 := JArr [j7; j662].
Definition j664 := JArr [j3; j663].
Definition j665 := jobj [("source_type_decl", j2); ("source_module_path", j656); ("bin_io_derived", (JBool false)); ("ref_rule", j664)].
Definition j666 := JArr [j10; j665].
Definition j667 := JArr [j9; j666].
Definition j668 := JArr [j667].
Definition j669 := JArr [j26; j668].
Definition j670 := jobj [("source_type_decl", j654); ("source_module_path", j655); ("bin_io_derived", (JBool false)); ("ref_rule", j669)].
Definition j671 := JArr [j10; j670].
Definition j672 := JArr [j9; j671].
Definition j673 := jobj [("field_name", j8); ("field_rule", j672)].
Definition j674 := JArr [j7; j673].
Definition j675 := JArr [j3; j674].
Definition j676 := jobj [("source_type_decl", j652); ("source_module_path", j653); ("bin_io_derived", (JBool false)); ("ref_rule", j675)].
Definition j677 := JArr [j10; j676].
Definition j678 := JArr [j9; j677].
Definition j679 := JArr [j678].
Definition j680 := jobj [("ctor_name", j649); ("index", (JNum (0))); ("ctor_args", j679)].
Definition j681 := JArr [j680].
Definition j682 := JArr [j93; j681].
Definition j683 := jobj [("source_type_decl", j650); ("source_module_path", j651); ("bin_io_derived", (JBool true)); ("ref_rule", j682)].
Definition j684 := JArr [j10; j683].
Definition j685 := JArr [j9; j684].
Definition j686 := jobj [("field_name", j8); ("field_rule", j685)].
Definition j687 := JArr [j7; j686].
Definition j688 := JArr [j3; j687].
Definition j689 := jobj [("source_type_decl", j648); ("source_module_path", j649); ("bin_io_derived", (JBool true)); ("ref_rule", j688)].
Definition j690 := JArr [j10; j689].
Definition j691 := JArr [j9; j690].
Definition j692 := jobj [("field_name", j647); ("field_rule", j691)].
Definition j693 := jstr "beta".
Definition j694 := jobj [("field_name", j693); ("field_rule", j678)].
Definition j695 := jstr "gamma".
Definition j696 := jobj [("field_name", j695); ("field_rule", j678)].
Definition j697 := jstr "zeta".
Definition j698 := jobj [("field_name", j697); ("field_rule", j691)].
Definition j699 := JArr [j692; j694; j696; j698].
Definition j700 := JArr [j3; j699].
Definition j701 := jobj [("source_type_decl", j645); ("source_module_path", j646); ("bin_io_derived", (JBool true)); ("ref_rule", j700)].
Definition j702 := JArr [j10; j701].
Definition j703 := JArr [j9; j702].
Definition j704 := jobj [("field_name", j8); ("field_rule", j703)].
Definition j705 := JArr [j7; j704].
Definition j706 := JArr [j3; j705].
Definition j707 := jobj [("source_type_decl", j643); ("source_module_path", j644); ("bin_io_derived", (JBool true)); ("ref_rule", j706)].
Definition j708 := JArr [j10; j707].
Definition j709 := JArr [j9; j708].
Definition j710 := jobj [("field_name", j642); ("field_rule", j709)].
Definition j711 := jstr "combined_inner_product".
Definition j712 := jstr "Shifted_value".
Definition j713 := jstr "type 'f t = | Shifted_value of 'f ".
Definition j714 := jstr "Shifted_value.Stable.V1".
Definition j715 := JArr [j31].
Definition j716 := jobj [("ctor_name", j712); ("index", (JNum (0))); ("ctor_args", j715)].
Definition j717 := JArr [j716].
Definition j718 := JArr [j93; j717].
Definition j719 := jobj [("source_type_decl", j713); ("source_module_path", j714); ("bin_io_derived", (JBool true)); ("ref_rule", j718)].
Definition j720 := JArr [j10; j719].
Definition j721 := JArr [j9; j720].
Definition j722 := jobj [("field_name", j8); ("field_rule", j721)].
Definition j723 := JArr [j7; j722].
Definition j724 := JArr [j3; j723].
Definition j725 := jobj [("source_type_decl", j648); ("source_module_path", j712); ("bin_io_derived", (JBool true)); ("ref_rule", j724)].
Definition j726 := JArr [j10; j725].
Definition j727 := JArr [j9; j726].
Definition j728 := jobj [("field_name", j711); ("field_rule", j727)].
Definition j729 := jstr "b".
Definition j730 := jobj [("field_name", j729); ("field_rule", j727)].
Definition j731 := jstr "xi".
Definition j732 := jobj [("field_name", j731); ("field_rule", j691)].
Definition j733 := jstr "bulletproof_challenges".
Definition j734 := jstr "Basic.Rounds.Step_vector".
Definition j735 := jstr "Vector.Vector_18".
Definition j736 := jstr "'a t = ('a, Nat.N17.n) vec".
Definition j737 := jstr "Pickles_types.Vector.Vector18".
Definition j738 := jstr "type 'challenge t = { version: int ; t: 'challenge typ }".
Definition j739 := jstr "Bulletproof_challenge".
Definition j740 := jstr "type 'challenge t = { prechallenge: 'challenge }".
Definition j741 := jstr "Bulletproof_challenge.Stable.V1".
Definition j742 := jstr "prechallenge".
Definition j743 := jobj [("field_name", j742); ("field_rule", j691)].
Definition j744 := JArr [j743].
Definition j745 := JArr [j3; j744].
Definition j746 := jobj [("source_type_decl", j740); ("source_module_path", j741); ("bin_io_derived", (JBool true)); ("ref_rule", j745)].
Definition j747 := JArr [j10; j746].
Definition j748 := JArr [j9; j747].
Definition j749 := jobj [("field_name", j8); ("field_rule", j748)].
Definition j750 := JArr [j7; j749].
Definition j751 := JArr [j3; j750].
Definition j752 := jobj [("source_type_decl", j738); ("source_module_path", j739); ("bin_io_derived", (JBool true)); ("ref_rule", j751)].
Definition j753 := JArr [j10; j752].
Definition j754 := JArr [j9; j753].
Definition j755 := JArr [j754].
Definition j756 := JArr [j26; j755].
Definition j757 := jobj [("source_type_decl", j736); ("source_module_path", j737); ("bin_io_derived", (JBool false)); ("ref_rule", j756)].
Definition j758 := JArr [j10; j757].
Definition j759 := JArr [j9; j758].
Definition j760 := jobj [("field_name", j8); ("field_rule", j759)].
Definition j761 := JArr [j7; j760].
Definition j762 := JArr [j3; j761].
Definition j763 := jobj [("source_type_decl", j652); ("source_module_path", j735); ("bin_io_derived", (JBool false)); ("ref_rule", j762)].
Definition j764 := JArr [j10; j763].
Definition j765 := JArr [j9; j764].
Definition j766 := jobj [("field_name", j8); ("field_rule", j765)].
Definition j767 := JArr [j7; j766].
Definition j768 := JArr [j3; j767].
Definition j769 := jobj [("source_type_decl", j652); ("source_module_path", j734); ("bin_io_derived", (JBool true)); ("ref_rule", j768)].
Definition j770 := JArr [j10; j769].
Definition j771 := JArr [j9; j770].
Definition j772 := jobj [("field_name", j733); ("field_rule", j771)].
Definition j773 := jstr "which_branch".
Definition j774 := jstr "Index".
Definition j775 := jstr "type t = char".
Definition j776 := jstr "Index.Stable.V1".
Definition j777 := jstr "Char".
Definition j778 := JArr [j777].
Definition j779 := jobj [("source_type_decl", j775); ("source_module_path", j776); ("bin_io_derived", (JBool true)); ("ref_rule", j778)].
Definition j780 := JArr [j10; j779].
Definition j781 := JArr [j9; j780].
Definition j782 := jobj [("field_name", j8); ("field_rule", j781)].
Definition j783 := JArr [j7; j782].
Definition j784 := JArr [j3; j783].
Definition j785 := jobj [("source_type_decl", j2); ("source_module_path", j774); ("bin_io_derived", (JBool true)); ("ref_rule", j784)].
Definition j786 := JArr [j10; j785].
Definition j787 := JArr [j9; j786].
Definition j788 := jobj [("field_name", j773); ("field_rule", j787)].
Definition j789 := JArr [j710; j728; j730; j732; j772; j788].
Definition j790 := JArr [j3; j789].
Definition j791 := jobj [("source_type_decl", j640); ("source_module_path", j641); ("bin_io_derived", (JBool true)); ("ref_rule", j790)].
Definition j792 := JArr [j10; j791].
Definition j793 := JArr [j9; j792].
Definition j794 := jobj [("field_name", j8); ("field_rule", j793)].
Definition j795 := JArr [j7; j794].
Definition j796 := JArr [j3; j795].
Definition j797 := jobj [("source_type_decl", j638); ("source_module_path", j639); ("bin_io_derived", (JBool true)); ("ref_rule", j796)].
Definition j798 := JArr [j10; j797].
Definition j799 := JArr [j9; j798].
Definition j800 := jobj [("field_name", j637); ("field_rule", j799)].
Definition j801 := jstr "sponge_digest_before_evaluations".
Definition j802 := jstr "Digest.Constant".
Definition j803 := jstr "Vector.Vector_4".
Definition j804 := jstr "'a t = ('a, Nat.N4.n) vec".
Definition j805 := jstr "Pickles_types.Vector.Vector4".
Definition j806 := jobj [("source_type_decl", j804); ("source_module_path", j805); ("bin_io_derived", (JBool false)); ("ref_rule", j669)].
Definition j807 := JArr [j10; j806].
Definition j808 := JArr [j9; j807].
Definition j809 := jobj [("field_name", j8); ("field_rule", j808)].
Definition j810 := JArr [j7; j809].
Definition j811 := JArr [j3; j810].
Definition j812 := jobj [("source_type_decl", j652); ("source_module_path", j803); ("bin_io_derived", (JBool false)); ("ref_rule", j811)].
Definition j813 := JArr [j10; j812].
Definition j814 := JArr [j9; j813].
Definition j815 := jobj [("field_name", j8); ("field_rule", j814)].
Definition j816 := JArr [j7; j815].
Definition j817 := JArr [j3; j816].
Definition j818 := jobj [("source_type_decl", j2); ("source_module_path", j802); ("bin_io_derived", (JBool true)); ("ref_rule", j817)].
Definition j819 := JArr [j10; j818].
Definition j820 := JArr [j9; j819].
Definition j821 := jobj [("field_name", j801); ("field_rule", j820)].
Definition j822 := jstr "me_only".
Definition j823 := jstr "type ('g1, 'bulletproof_challenges) t = { version: int ; t: ('g1, 'bulletproof_challenges) typ }".
Definition j824 := jstr "Composition_types.Dlog_based.Proof_state.Me_only".
Definition j825 := jstr "type ('g1, 'bulletproof_challenges) t = { sg: 'g1 ; old_bulletproof_challenges: 'bulletproof_challenges }".
Definition j826 := jstr "Composition_types.Dlog_based.Proof_state.Me_only.Stable.V1".
Definition j827 := jstr "sg".
Definition j828 := jobj [("field_name", j827); ("field_rule", j36)].
Definition j829 := jstr "old_bulletproof_challenges".
Definition j830 := jstr "Reduced_me_only.Dlog_based.Challenges_vector".
Definition j831 := jstr "Basic.Rounds.Wrap_vector".
Definition j832 := jstr "Vector.Vector_17".
Definition j833 := jstr "Pickles_types.Vector.Vector17".
Definition j834 := jobj [("source_type_decl", j736); ("source_module_path", j833); ("bin_io_derived", (JBool false)); ("ref_rule", j756)].
Definition j835 := JArr [j10; j834].
Definition j836 := JArr [j9; j835].
Definition j837 := jobj [("field_name", j8); ("field_rule", j836)].
Definition j838 := JArr [j7; j837].
Definition j839 := JArr [j3; j838].
Definition j840 := jobj [("source_type_decl", j652); ("source_module_path", j832); ("bin_io_derived", (JBool false)); ("ref_rule", j839)].
Definition j841 := JArr [j10; j840].
Definition j842 := JArr [j9; j841].
Definition j843 := jobj [("field_name", j8); ("field_rule", j842)].
Definition j844 := JArr [j7; j843].
Definition j845 := JArr [j3; j844].
Definition j846 := jobj [("source_type_decl", j652); ("source_module_path", j831); ("bin_io_derived", (JBool true)); ("ref_rule", j845)].
Definition j847 := JArr [j10; j846].
Definition j848 := JArr [j9; j847].
Definition j849 := jobj [("field_name", j8); ("field_rule", j848)].
Definition j850 := JArr [j7; j849].
Definition j851 := JArr [j3; j850].
Definition j852 := jobj [("source_type_decl", j2); ("source_module_path", j830); ("bin_io_derived", (JBool true)); ("ref_rule", j851)].
Definition j853 := JArr [j10; j852].
Definition j854 := JArr [j9; j853].
Definition j855 := JArr [j854].
Definition j856 := JArr [j26; j855].
Definition j857 := jobj [("source_type_decl", j654); ("source_module_path", j655); ("bin_io_derived", (JBool false)); ("ref_rule", j856)].
Definition j858 := JArr [j10; j857].
Definition j859 := JArr [j9; j858].
Definition j860 := jobj [("field_name", j8); ("field_rule", j859)].
Definition j861 := JArr [j7; j860].
Definition j862 := JArr [j3; j861].
Definition j863 := jobj [("source_type_decl", j652); ("source_module_path", j653); ("bin_io_derived", (JBool false)); ("ref_rule", j862)].
Definition j864 := JArr [j10; j863].
Definition j865 := JArr [j9; j864].
Definition j866 := jobj [("field_name", j829); ("field_rule", j865)].
Definition j867 := JArr [j828; j866].
Definition j868 := JArr [j3; j867].
Definition j869 := jobj [("source_type_decl", j825); ("source_module_path", j826); ("bin_io_derived", (JBool true)); ("ref_rule", j868)].
Definition j870 := JArr [j10; j869].
Definition j871 := JArr [j9; j870].
Definition j872 := jobj [("field_name", j8); ("field_rule", j871)].
Definition j873 := JArr [j7; j872].
Definition j874 := JArr [j3; j873].
Definition j875 := jobj [("source_type_decl", j823); ("source_module_path", j824); ("bin_io_derived", (JBool true)); ("ref_rule", j874)].
Definition j876 := JArr [j10; j875].
Definition j877 := JArr [j9; j876].
Definition j878 := jobj [("field_name", j822); ("field_rule", j877)].
Definition j879 := JArr [j800; j821; j878].
Definition j880 := JArr [j3; j879].
Definition j881 := jobj [("source_type_decl", j635); ("source_module_path", j636); ("bin_io_derived", (JBool true)); ("ref_rule", j880)].
Definition j882 := JArr [j10; j881].
Definition j883 := JArr [j9; j882].
Definition j884 := jobj [("field_name", j8); ("field_rule", j883)].
Definition j885 := JArr [j7; j884].
Definition j886 := JArr [j3; j885].
Definition j887 := jobj [("source_type_decl", j633); ("source_module_path", j634); ("bin_io_derived", (JBool true)); ("ref_rule", j886)].
Definition j888 := JArr [j10; j887].
Definition j889 := JArr [j9; j888].
Definition j890 := jobj [("field_name", j632); ("field_rule", j889)].
Definition j891 := jstr "pass_through".
Definition j892 := jstr "type ('s, 'sgs, 'bpcs) t = { version: int ; t: ('s, 'sgs, 'bpcs) typ }".
Definition j893 := jstr "Reduced_me_only.Pairing_based".
Definition j894 := jstr "type ('s, 'sgs, 'bpcs) t = { app_state: 's ; sg: 'sgs ; old_bulletproof_challenges: 'bpcs }".
Definition j895 := jstr "Reduced_me_only.Pairing_based.Stable.V1".
Definition j896 := jstr "app_state".
Definition j897 := jstr "Unit".
Definition j898 := JArr [j897].
Definition j899 := jobj [("field_name", j896); ("field_rule", j898)].
Definition j900 := jstr "At_most.At_most_2".
Definition j901 := jstr "'a Core_kernel.List.Stable.V1.t".
Definition j902 := jobj [("source_type_decl", j901); ("source_module_path", j658); ("bin_io_derived", (JBool true)); ("ref_rule", j37)].
Definition j903 := JArr [j10; j902].
Definition j904 := JArr [j9; j903].
Definition j905 := jobj [("field_name", j8); ("field_rule", j904)].
Definition j906 := JArr [j7; j905].
Definition j907 := JArr [j3; j906].
Definition j908 := jobj [("source_type_decl", j652); ("source_module_path", j900); ("bin_io_derived", (JBool false)); ("ref_rule", j907)].
Definition j909 := JArr [j10; j908].
Definition j910 := JArr [j9; j909].
Definition j911 := jobj [("field_name", j827); ("field_rule", j910)].
Definition j912 := JArr [j20; j771].
Definition j913 := jobj [("source_type_decl", j901); ("source_module_path", j658); ("bin_io_derived", (JBool true)); ("ref_rule", j912)].
Definition j914 := JArr [j10; j913].
Definition j915 := JArr [j9; j914].
Definition j916 := jobj [("field_name", j8); ("field_rule", j915)].
Definition j917 := JArr [j7; j916].
Definition j918 := JArr [j3; j917].
Definition j919 := jobj [("source_type_decl", j652); ("source_module_path", j900); ("bin_io_derived", (JBool false)); ("ref_rule", j918)].
Definition j920 := JArr [j10; j919].
Definition j921 := JArr [j9; j920].
Definition j922 := jobj [("field_name", j829); ("field_rule", j921)].
Definition j923 := JArr [j899; j911; j922].
Definition j924 := JArr [j3; j923].
Definition j925 := jobj [("source_type_decl", j894); ("source_module_path", j895); ("bin_io_derived", (JBool true)); ("ref_rule", j924)].
Definition j926 := JArr [j10; j925].
Definition j927 := JArr [j9; j926].
Definition j928 := jobj [("field_name", j8); ("field_rule", j927)].
Definition j929 := JArr [j7; j928].
Definition j930 := JArr [j3; j929].
Definition j931 := jobj [("source_type_decl", j892); ("source_module_path", j893); ("bin_io_derived", (JBool true)); ("ref_rule", j930)].
Definition j932 := JArr [j10; j931].
Definition j933 := JArr [j9; j932].
Definition j934 := jobj [("field_name", j891); ("field_rule", j933)].
Definition j935 := JArr [j890; j934].
Definition j936 := JArr [j3; j935].
Definition j937 := jobj [("source_type_decl", j630); ("source_module_path", j631); ("bin_io_derived", (JBool true)); ("ref_rule", j936)].
Definition j938 := JArr [j10; j937].
Definition j939 := JArr [j9; j938].
Definition j940 := jobj [("field_name", j8); ("field_rule", j939)].
Definition j941 := JArr [j7; j940].
Definition j942 := JArr [j3; j941].
Definition j943 := jobj [("source_type_decl", j628); ("source_module_path", j629); ("bin_io_derived", (JBool true)); ("ref_rule", j942)].
Definition j944 := JArr [j10; j943].
Definition j945 := JArr [j9; j944].
Definition j946 := jobj [("field_name", j8); ("field_rule", j945)].
Definition j947 := JArr [j7; j946].
Definition j948 := JArr [j3; j947].
Definition j949 := jobj [("source_type_decl", j626); ("source_module_path", j627); ("bin_io_derived", (JBool true)); ("ref_rule", j948)].
Definition j950 := JArr [j10; j949].
Definition j951 := JArr [j9; j950].
Definition j952 := jobj [("field_name", j625); ("field_rule", j951)].
Definition j953 := jstr "prev_evals".
Definition j954 := jstr "Proof.Base.Double".
Definition j955 := jstr "type 'a t = ('a * 'a)".
Definition j956 := jstr "Proof.Base.Double.Stable.V1".
Definition j957 := jstr "Dlog_plonk_types.Evals".
Definition j958 := jstr "type 'a t = { l: 'a ; r: 'a ; o: 'a ; z: 'a ; t: 'a ; f: 'a ; sigma1: 'a ; sigma2: 'a }".
Definition j959 := jstr "Dlog_plonk_types.Evals.Stable.V1".
Definition j960 := jstr "l".
Definition j961 := jstr "Dlog_plonk_types.Pc_array".
Definition j962 := jstr "type 'a t = 'a array".
Definition j963 := jstr "Dlog_plonk_types.Pc_array.Stable.V1".
Definition j964 := JArr [j20; j31].
Definition j965 := jobj [("source_type_decl", j962); ("source_module_path", j963); ("bin_io_derived", (JBool true)); ("ref_rule", j964)].
Definition j966 := JArr [j10; j965].
Definition j967 := JArr [j9; j966].
Definition j968 := jobj [("field_name", j8); ("field_rule", j967)].
Definition j969 := JArr [j7; j968].
Definition j970 := JArr [j3; j969].
Definition j971 := jobj [("source_type_decl", j652); ("source_module_path", j961); ("bin_io_derived", (JBool true)); ("ref_rule", j970)].
Definition j972 := JArr [j10; j971].
Definition j973 := JArr [j9; j972].
Definition j974 := jobj [("field_name", j960); ("field_rule", j973)].
Definition j975 := jstr "r".
Definition j976 := jobj [("field_name", j975); ("field_rule", j973)].
Definition j977 := jstr "o".
Definition j978 := jobj [("field_name", j977); ("field_rule", j973)].
Definition j979 := jstr "z".
Definition j980 := jobj [("field_name", j979); ("field_rule", j973)].
Definition j981 := jobj [("field_name", j8); ("field_rule", j973)].
Definition j982 := jstr "f".
Definition j983 := jobj [("field_name", j982); ("field_rule", j973)].
Definition j984 := jstr "sigma1".
Definition j985 := jobj [("field_name", j984); ("field_rule", j973)].
Definition j986 := jstr "sigma2".
Definition j987 := jobj [("field_name", j986); ("field_rule", j973)].
Definition j988 := JArr [j974; j976; j978; j980; j981; j983; j985; j987].
Definition j989 := JArr [j3; j988].
Definition j990 := jobj [("source_type_decl", j958); ("source_module_path", j959); ("bin_io_derived", (JBool true)); ("ref_rule", j989)].
Definition j991 := JArr [j10; j990].
Definition j992 := JArr [j9; j991].
Definition j993 := jobj [("field_name", j8); ("field_rule", j992)].
Definition j994 := JArr [j7; j993].
Definition j995 := JArr [j3; j994].
Definition j996 := jobj [("source_type_decl", j652); ("source_module_path", j957); ("bin_io_derived", (JBool true)); ("ref_rule", j995)].
Definition j997 := JArr [j10; j996].
Definition j998 := JArr [j9; j997].
Definition j999 := JArr [j998; j998].
Definition j1000 := JArr [j23; j999].
Definition j1001 := jobj [("source_type_decl", j955); ("source_module_path", j956); ("bin_io_derived", (JBool true)); ("ref_rule", j1000)].
Definition j1002 := JArr [j10; j1001].
Definition j1003 := JArr [j9; j1002].
Definition j1004 := jobj [("field_name", j8); ("field_rule", j1003)].
Definition j1005 := JArr [j7; j1004].
Definition j1006 := JArr [j3; j1005].
Definition j1007 := jobj [("source_type_decl", j652); ("source_module_path", j954); ("bin_io_derived", (JBool true)); ("ref_rule", j1006)].
Definition j1008 := JArr [j10; j1007].
Definition j1009 := JArr [j9; j1008].
Definition j1010 := jobj [("field_name", j953); ("field_rule", j1009)].
Definition j1011 := jstr "prev_x_hat".
Definition j1012 := jobj [("source_type_decl", j955); ("source_module_path", j956); ("bin_io_derived", (JBool true)); ("ref_rule", j33)].
Definition j1013 := JArr [j10; j1012].
Definition j1014 := JArr [j9; j1013].
Definition j1015 := jobj [("field_name", j8); ("field_rule", j1014)].
Definition j1016 := JArr [j7; j1015].
Definition j1017 := JArr [j3; j1016].
Definition j1018 := jobj [("source_type_decl", j652); ("source_module_path", j954); ("bin_io_derived", (JBool true)); ("ref_rule", j1017)].
Definition j1019 := JArr [j10; j1018].
Definition j1020 := JArr [j9; j1019].
Definition j1021 := jobj [("field_name", j1011); ("field_rule", j1020)].
Definition j1022 := jstr "proof".
Definition j1023 := jstr "Plonk_dlog_proof.Make".
Definition j1024 := jstr "type ('g, 'g_opt, 'fq, 'fqv) t = { version: int ; t: ('g, 'g_opt, 'fq, 'fqv) typ }".
Definition j1025 := jstr "Dlog_plonk_types.Proof".
Definition j1026 := jstr "type ('g, 'g_opt, 'fq, 'fqv) t = { messages: ('g, 'g_opt) Messages.Stable.V1.t ; openings: ('g, 'fq, 'fqv) Openings.Stable.V1.t }".
Definition j1027 := jstr "Dlog_plonk_types.Proof.Stable.V1".
Definition j1028 := jstr "messages".
Definition j1029 := jstr "type ('g, 'g_opt) t = { version: int ; t: ('g, 'g_opt) typ }".
Definition j1030 := jstr "Dlog_plonk_types.Messages".
Definition j1031 := jstr "type ('g, 'g_opt) t = { l_comm: 'g Without_degree_bound.Stable.V1.t ; r_comm: 'g Without_degree_bound.Stable.V1.t ; o_comm: 'g Without_degree_bound.Stable.V1.t ; z_comm: 'g Without_degree_bound.Stable.V1.t ; t_comm: 'g_opt With_degree_bound.Stable.V1.t }".
Definition j1032 := jstr "Dlog_plonk_types.Messages.Stable.V1".
Definition j1033 := jstr "l_comm".
Definition j1034 := jstr "type 'g t = { version: int ; t: 'g typ }".
Definition j1035 := jstr "Dlog_plonk_types.Poly_comm.Without_degree_bound".
Definition j1036 := jobj [("source_type_decl", j962); ("source_module_path", j963); ("bin_io_derived", (JBool true)); ("ref_rule", j37)].
Definition j1037 := JArr [j10; j1036].
Definition j1038 := JArr [j9; j1037].
Definition j1039 := jobj [("field_name", j8); ("field_rule", j1038)].
Definition j1040 := JArr [j7; j1039].
Definition j1041 := JArr [j3; j1040].
Definition j1042 := jobj [("source_type_decl", j652); ("source_module_path", j961); ("bin_io_derived", (JBool true)); ("ref_rule", j1041)].
Definition j1043 := JArr [j10; j1042].
Definition j1044 := JArr [j9; j1043].
Definition j1045 := jobj [("field_name", j8); ("field_rule", j1044)].
Definition j1046 := JArr [j7; j1045].
Definition j1047 := JArr [j3; j1046].
Definition j1048 := jobj [("source_type_decl", j1034); ("source_module_path", j1035); ("bin_io_derived", (JBool true)); ("ref_rule", j1047)].
Definition j1049 := JArr [j10; j1048].
Definition j1050 := JArr [j9; j1049].
Definition j1051 := jobj [("field_name", j1033); ("field_rule", j1050)].
Definition j1052 := jstr "r_comm".
Definition j1053 := jobj [("field_name", j1052); ("field_rule", j1050)].
Definition j1054 := jstr "o_comm".
Definition j1055 := jobj [("field_name", j1054); ("field_rule", j1050)].
Definition j1056 := jstr "z_comm".
Definition j1057 := jobj [("field_name", j1056); ("field_rule", j1050)].
Definition j1058 := jstr "t_comm".
Definition j1059 := jstr "type 'g_opt t = { version: int ; t: 'g_opt typ }".
Definition j1060 := jstr "Dlog_plonk_types.Poly_comm.With_degree_bound".
Definition j1061 := jstr "type 'g_opt t = { unshifted: 'g_opt Pc_array.Stable.V1.t ; shifted: 'g_opt }".
Definition j1062 := jstr "Dlog_plonk_types.Poly_comm.With_degree_bound.Stable.V1".
Definition j1063 := jstr "unshifted".
Definition j1064 := jstr "Or_infinity".
Definition j1065 := jstr "type 'a t = 'a Marlin_plonk_bindings_types.Or_infinity.t = | Infinity  | Finite of 'a ".
Definition j1066 := jstr "Or_infinity.Stable.V1".
Definition j1067 := jstr "Infinity".
Definition j1068 := jobj [("ctor_name", j1067); ("index", (JNum (0))); ("ctor_args", j27)].
Definition j1069 := jstr "Finite".
Definition j1070 := JArr [j36].
Definition j1071 := jobj [("ctor_name", j1069); ("index", (JNum (1))); ("ctor_args", j1070)].
Definition j1072 := JArr [j1068; j1071].
Definition j1073 := JArr [j93; j1072].
Definition j1074 := jobj [("source_type_decl", j1065); ("source_module_path", j1066); ("bin_io_derived", (JBool true)); ("ref_rule", j1073)].
Definition j1075 := JArr [j10; j1074].
Definition j1076 := JArr [j9; j1075].
Definition j1077 := jobj [("field_name", j8); ("field_rule", j1076)].
Definition j1078 := JArr [j7; j1077].
Definition j1079 := JArr [j3; j1078].
Definition j1080 := jobj [("source_type_decl", j652); ("source_module_path", j1064); ("bin_io_derived", (JBool true)); ("ref_rule", j1079)].
Definition j1081 := JArr [j10; j1080].
Definition j1082 := JArr [j9; j1081].
Definition j1083 := JArr [j20; j1082].
Definition j1084 := jobj [("source_type_decl", j962); ("source_module_path", j963); ("bin_io_derived", (JBool true)); ("ref_rule", j1083)].
Definition j1085 := JArr [j10; j1084].
Definition j1086 := JArr [j9; j1085].
Definition j1087 := jobj [("field_name", j8); ("field_rule", j1086)].
Definition j1088 := JArr [j7; j1087].
Definition j1089 := JArr [j3; j1088].
Definition j1090 := jobj [("source_type_decl", j652); ("source_module_path", j961); ("bin_io_derived", (JBool true)); ("ref_rule", j1089)].
Definition j1091 := JArr [j10; j1090].
Definition j1092 := JArr [j9; j1091].
Definition j1093 := jobj [("field_name", j1063); ("field_rule", j1092)].
Definition j1094 := jstr "shifted".
Definition j1095 := jobj [("field_name", j1094); ("field_rule", j1082)].
Definition j1096 := JArr [j1093; j1095].
Definition j1097 := JArr [j3; j1096].
Definition j1098 := jobj [("source_type_decl", j1061); ("source_module_path", j1062); ("bin_io_derived", (JBool true)); ("ref_rule", j1097)].
Definition j1099 := JArr [j10; j1098].
Definition j1100 := JArr [j9; j1099].
Definition j1101 := jobj [("field_name", j8); ("field_rule", j1100)].
Definition j1102 := JArr [j7; j1101].
Definition j1103 := JArr [j3; j1102].
Definition j1104 := jobj [("source_type_decl", j1059); ("source_module_path", j1060); ("bin_io_derived", (JBool true)); ("ref_rule", j1103)].
Definition j1105 := JArr [j10; j1104].
Definition j1106 := JArr [j9; j1105].
Definition j1107 := jobj [("field_name", j1058); ("field_rule", j1106)].
Definition j1108 := JArr [j1051; j1053; j1055; j1057; j1107].
Definition j1109 := JArr [j3; j1108].
Definition j1110 := jobj [("source_type_decl", j1031); ("source_module_path", j1032); ("bin_io_derived", (JBool true)); ("ref_rule", j1109)].
Definition j1111 := JArr [j10; j1110].
Definition j1112 := JArr [j9; j1111].
Definition j1113 := jobj [("field_name", j8); ("field_rule", j1112)].
Definition j1114 := JArr [j7; j1113].
Definition j1115 := JArr [j3; j1114].
Definition j1116 := jobj [("source_type_decl", j1029); ("source_module_path", j1030); ("bin_io_derived", (JBool true)); ("ref_rule", j1115)].
Definition j1117 := JArr [j10; j1116].
Definition j1118 := JArr [j9; j1117].
Definition j1119 := jobj [("field_name", j1028); ("field_rule", j1118)].
Definition j1120 := jstr "openings".
Definition j1121 := jstr "type ('g, 'fq, 'fqv) t = { version: int ; t: ('g, 'fq, 'fqv) typ }".
Definition j1122 := jstr "Dlog_plonk_types.Openings".
Definition j1123 := jstr "type ('g, 'fq, 'fqv) t = { proof: ('g, 'fq) Bulletproof.Stable.V1.t ; evals: ('fqv Evals.Stable.V1.t * 'fqv Evals.Stable.V1.t) }".
Definition j1124 := jstr "Dlog_plonk_types.Openings.Stable.V1".
Definition j1125 := jstr "type ('g, 'fq) t = { version: int ; t: ('g, 'fq) typ }".
Definition j1126 := jstr "Dlog_plonk_types.Openings.Bulletproof".
Definition j1127 := jstr "type ('g, 'fq) t = { lr: ('g * 'g) Pc_array.Stable.V1.t ; z_1: 'fq ; z_2: 'fq ; delta: 'g ; sg: 'g }".
Definition j1128 := jstr "Dlog_plonk_types.Openings.Bulletproof.Stable.V1".
Definition j1129 := jstr "lr".
Definition j1130 := JArr [j36; j36].
Definition j1131 := JArr [j23; j1130].
Definition j1132 := JArr [j20; j1131].
Definition j1133 := jobj [("source_type_decl", j962); ("source_module_path", j963); ("bin_io_derived", (JBool true)); ("ref_rule", j1132)].
Definition j1134 := JArr [j10; j1133].
Definition j1135 := JArr [j9; j1134].
Definition j1136 := jobj [("field_name", j8); ("field_rule", j1135)].
Definition j1137 := JArr [j7; j1136].
Definition j1138 := JArr [j3; j1137].
Definition j1139 := jobj [("source_type_decl", j652); ("source_module_path", j961); ("bin_io_derived", (JBool true)); ("ref_rule", j1138)].
Definition j1140 := JArr [j10; j1139].
Definition j1141 := JArr [j9; j1140].
Definition j1142 := jobj [("field_name", j1129); ("field_rule", j1141)].
Definition j1143 := jstr "z_1".
Definition j1144 := jobj [("field_name", j1143); ("field_rule", j31)].
Definition j1145 := jstr "z_2".
Definition j1146 := jobj [("field_name", j1145); ("field_rule", j31)].
Definition j1147 := jobj [("field_name", j553); ("field_rule", j36)].
Definition j1148 := JArr [j1142; j1144; j1146; j1147; j828].
Definition j1149 := JArr [j3; j1148].
Definition j1150 := jobj [("source_type_decl", j1127); ("source_module_path", j1128); ("bin_io_derived", (JBool true)); ("ref_rule", j1149)].
Definition j1151 := JArr [j10; j1150].
Definition j1152 := JArr [j9; j1151].
Definition j1153 := jobj [("field_name", j8); ("field_rule", j1152)].
Definition j1154 := JArr [j7; j1153].
Definition j1155 := JArr [j3; j1154].
Definition j1156 := jobj [("source_type_decl", j1125); ("source_module_path", j1126); ("bin_io_derived", (JBool true)); ("ref_rule", j1155)].
Definition j1157 := JArr [j10; j1156].
Definition j1158 := JArr [j9; j1157].
Definition j1159 := jobj [("field_name", j1022); ("field_rule", j1158)].
Definition j1160 := jstr "evals".
Definition j1161 := jobj [("field_name", j1160); ("field_rule", j1000)].
Definition j1162 := JArr [j1159; j1161].
Definition j1163 := JArr [j3; j1162].
Definition j1164 := jobj [("source_type_decl", j1123); ("source_module_path", j1124); ("bin_io_derived", (JBool true)); ("ref_rule", j1163)].
Definition j1165 := JArr [j10; j1164].
Definition j1166 := JArr [j9; j1165].
Definition j1167 := jobj [("field_name", j8); ("field_rule", j1166)].
Definition j1168 := JArr [j7; j1167].
Definition j1169 := JArr [j3; j1168].
Definition j1170 := jobj [("source_type_decl", j1121); ("source_module_path", j1122); ("bin_io_derived", (JBool true)); ("ref_rule", j1169)].
Definition j1171 := JArr [j10; j1170].
Definition j1172 := JArr [j9; j1171].
Definition j1173 := jobj [("field_name", j1120); ("field_rule", j1172)].
Definition j1174 := JArr [j1119; j1173].
Definition j1175 := JArr [j3; j1174].
Definition j1176 := jobj [("source_type_decl", j1026); ("source_module_path", j1027); ("bin_io_derived", (JBool true)); ("ref_rule", j1175)].
Definition j1177 := JArr [j10; j1176].
Definition j1178 := JArr [j9; j1177].
Definition j1179 := jobj [("field_name", j8); ("field_rule", j1178)].
Definition j1180 := JArr [j7; j1179].
Definition j1181 := JArr [j3; j1180].
Definition j1182 := jobj [("source_type_decl", j1024); ("source_module_path", j1025); ("bin_io_derived", (JBool true)); ("ref_rule", j1181)].
Definition j1183 := JArr [j10; j1182].
Definition j1184 := JArr [j9; j1183].
Definition j1185 := jobj [("field_name", j8); ("field_rule", j1184)].
Definition j1186 := JArr [j7; j1185].
Definition j1187 := JArr [j3; j1186].
Definition j1188 := jobj [("source_type_decl", j2); ("source_module_path", j1023); ("bin_io_derived", (JBool true)); ("ref_rule", j1187)].
Definition j1189 := JArr [j10; j1188].
Definition j1190 := JArr [j9; j1189].
Definition j1191 := jobj [("field_name", j1022); ("field_rule", j1190)].
Definition j1192 := JArr [j952; j1010; j1021; j1191].
Definition j1193 := JArr [j3; j1192].
Definition j1194 := jobj [("source_type_decl", j623); ("source_module_path", j624); ("bin_io_derived", (JBool true)); ("ref_rule", j1193)].
Definition j1195 := JArr [j10; j1194].
Definition j1196 := JArr [j9; j1195].
Definition j1197 := jobj [("field_name", j8); ("field_rule", j1196)].
Definition j1198 := JArr [j7; j1197].
Definition j1199 := JArr [j3; j1198].
Definition j1200 := jobj [("source_type_decl", j621); ("source_module_path", j622); ("bin_io_derived", (JBool true)); ("ref_rule", j1199)].
Definition j1201 := JArr [j10; j1200].
Definition j1202 := JArr [j9; j1201].
Definition j1203 := jobj [("field_name", j8); ("field_rule", j1202)].
Definition j1204 := JArr [j7; j1203].
Definition j1205 := JArr [j3; j1204].
Definition j1206 := jobj [("source_type_decl", j2); ("source_module_path", j620); ("bin_io_derived", (JBool false)); ("ref_rule", j1205)].
Definition j1207 := JArr [j10; j1206].
Definition j1208 := JArr [j9; j1207].
Definition j1209 := jobj [("field_name", j8); ("field_rule", j1208)].
Definition j1210 := JArr [j7; j1209].
Definition j1211 := JArr [j3; j1210].
Definition j1212 := jobj [("source_type_decl", j2); ("source_module_path", j619); ("bin_io_derived", (JBool false)); ("ref_rule", j1211)].
Definition j1213 := JArr [j10; j1212].
Definition j1214 := JArr [j9; j1213].
Definition j1215 := jobj [("field_name", j8); ("field_rule", j1214)].
Definition j1216 := JArr [j7; j1215].
Definition j1217 := JArr [j3; j1216].
Definition j1218 := jobj [("source_type_decl", j2); ("source_module_path", j618); ("bin_io_derived", (JBool true)); ("ref_rule", j1217)].
Definition j1219 := JArr [j10; j1218].
Definition j1220 := JArr [j9; j1219].
Definition j1221 := jobj [("field_name", j617); ("field_rule", j1220)].
Definition j1222 := jstr "staged_ledger_diff".
Definition j1223 := jstr "Staged_ledger_diff".
Definition j1224 := jstr "type t = { diff: Diff.Stable.V1.t }".
Definition j1225 := jstr "Staged_ledger_diff.Stable.V1".
Definition j1226 := jstr "diff".
Definition j1227 := jstr "Staged_ledger_diff.Diff".
Definition j1228 := jstr "type t = (Pre_diff_with_at_most_two_coinbase.Stable.V1.t * Pre_diff_with_at_most_one_coinbase.Stable.V1.t option)".
Definition j1229 := jstr "Staged_ledger_diff.Diff.Stable.V1".
Definition j1230 := jstr "Staged_ledger_diff.Pre_diff_with_at_most_two_coinbase".
Definition j1231 := jstr "type ('a, 'b) t = { version: int ; t: ('a, 'b) typ }".
Definition j1232 := jstr "Staged_ledger_diff.Pre_diff_two".
Definition j1233 := jstr "type ('a, 'b) t = { completed_works: 'a list ; commands: 'b list ; coinbase: Ft.Stable.V1.t At_most_two.Stable.V1.t ; internal_command_balances: Transaction_status.Internal_command_balance_data.Stable.V1.t list }".
Definition j1234 := jstr "Staged_ledger_diff.Pre_diff_two.Stable.V1".
Definition j1235 := jstr "completed_works".
Definition j1236 := jstr "Transaction_snark_work.T".
Definition j1237 := jstr "type t = { fee: Fee.Stable.V1.t ; proofs: Ledger_proof.Stable.V1.t One_or_two.Stable.V1.t ; prover: Public_key.Compressed.Stable.V1.t }".
Definition j1238 := jstr "Transaction_snark_work.T.Stable.V1".
Definition j1239 := jstr "fee".
Definition j1240 := jstr "Currency.Fee".
Definition j1241 := jobj [("source_type_decl", j2); ("source_module_path", j1240); ("bin_io_derived", (JBool true)); ("ref_rule", j301)].
Definition j1242 := JArr [j10; j1241].
Definition j1243 := JArr [j9; j1242].
Definition j1244 := jobj [("field_name", j1239); ("field_rule", j1243)].
Definition j1245 := jstr "proofs".
Definition j1246 := jstr "One_or_two".
Definition j1247 := jstr "type 'a t = [ `One of 'a  | `Two of ('a * 'a) ]".
Definition j1248 := jstr "One_or_two.Stable.V1".
Definition j1249 := jstr "Polyvar".
Definition j1250 := jstr "Tagged".
Definition j1251 := jstr "One".
Definition j1252 := jstr "Ledger_proof.Prod".
Definition j1253 := jstr "Transaction_snark".
Definition j1254 := jstr "type t = { statement: Statement.With_sok.Stable.V1.t ; proof: Proof.Stable.V1.t }".
Definition j1255 := jstr "Transaction_snark.Stable.V1".
Definition j1256 := jstr "Transaction_snark.Statement.With_sok".
Definition j1257 := jstr "type ('ledger_hash, 'amount, 'pending_coinbase, 'fee_excess, 'token_id, 'sok_digest) t = { version: int ; t: ('ledger_hash, 'amount, 'pending_coinbase, 'fee_excess, 'token_id, 'sok_digest) typ }".
Definition j1258 := jstr "Transaction_snark.Statement.Poly".
Definition j1259 := jstr "type ('ledger_hash, 'amount, 'pending_coinbase, 'fee_excess, 'token_id, 'sok_digest) t = { source: 'ledger_hash ; target: 'ledger_hash ; supply_increase: 'amount ; pending_coinbase_stack_state: 'pending_coinbase ; fee_excess: 'fee_excess ; next_available_token_before: 'token_id ; next_available_token_after: 'token_id ; sok_digest: 'sok_digest }".
Definition j1260 := jstr "Transaction_snark.Statement.Poly.Stable.V1".
Definition j1261 := jstr "source".
Definition j1262 := jobj [("field_name", j1261); ("field_rule", j205)].
Definition j1263 := jstr "target".
Definition j1264 := jobj [("field_name", j1263); ("field_rule", j205)].
Definition j1265 := jstr "supply_increase".
Definition j1266 := jobj [("field_name", j1265); ("field_rule", j388)].
Definition j1267 := jstr "pending_coinbase_stack_state".
Definition j1268 := jstr "Transaction_snark.Pending_coinbase_stack_state".
Definition j1269 := jstr "type 'pending_coinbase t = { version: int ; t: 'pending_coinbase typ }".
Definition j1270 := jstr "Transaction_snark.Pending_coinbase_stack_state.Poly".
Definition j1271 := jstr "type 'pending_coinbase t = { source: 'pending_coinbase ; target: 'pending_coinbase }".
Definition j1272 := jstr "Transaction_snark.Pending_coinbase_stack_state.Poly.Stable.V1".
Definition j1273 := jstr "Pending_coinbase.Stack_versioned".
Definition j1274 := jstr "type ('data_stack, 'state_stack) t = { version: int ; t: ('data_stack, 'state_stack) typ }".
Definition j1275 := jstr "Pending_coinbase.Stack_versioned.Poly".
Definition j1276 := jstr "type ('data_stack, 'state_stack) t = { data: 'data_stack ; state: 'state_stack }".
Definition j1277 := jstr "Pending_coinbase.Stack_versioned.Poly.Stable.V1".
Definition j1278 := jstr "Pending_coinbase.Coinbase_stack".
Definition j1279 := jobj [("source_type_decl", j2); ("source_module_path", j1278); ("bin_io_derived", (JBool true)); ("ref_rule", j172)].
Definition j1280 := JArr [j10; j1279].
Definition j1281 := JArr [j9; j1280].
Definition j1282 := jobj [("field_name", j124); ("field_rule", j1281)].
Definition j1283 := jstr "state".
Definition j1284 := jstr "Pending_coinbase.State_stack".
Definition j1285 := jstr "type 'stack_hash t = { version: int ; t: 'stack_hash typ }".
Definition j1286 := jstr "Pending_coinbase.State_stack.Poly".
Definition j1287 := jstr "type 'stack_hash t = { init: 'stack_hash ; curr: 'stack_hash }".
Definition j1288 := jstr "Pending_coinbase.State_stack.Poly.Stable.V1".
Definition j1289 := jstr "init".
Definition j1290 := jstr "Pending_coinbase.Stack_hash".
Definition j1291 := jobj [("source_type_decl", j2); ("source_module_path", j1290); ("bin_io_derived", (JBool true)); ("ref_rule", j172)].
Definition j1292 := JArr [j10; j1291].
Definition j1293 := JArr [j9; j1292].
Definition j1294 := jobj [("field_name", j1289); ("field_rule", j1293)].
Definition j1295 := jstr "curr".
Definition j1296 := jobj [("field_name", j1295); ("field_rule", j1293)].
Definition j1297 := JArr [j1294; j1296].
Definition j1298 := JArr [j3; j1297].
Definition j1299 := jobj [("source_type_decl", j1287); ("source_module_path", j1288); ("bin_io_derived", (JBool true)); ("ref_rule", j1298)].
Definition j1300 := JArr [j10; j1299].
Definition j1301 := JArr [j9; j1300].
Definition j1302 := jobj [("field_name", j8); ("field_rule", j1301)].
Definition j1303 := JArr [j7; j1302].
Definition j1304 := JArr [j3; j1303].
Definition j1305 := jobj [("source_type_decl", j1285); ("source_module_path", j1286); ("bin_io_derived", (JBool true)); ("ref_rule", j1304)].
Definition j1306 := JArr [j10; j1305].
Definition j1307 := JArr [j9; j1306].
Definition j1308 := jobj [("field_name", j8); ("field_rule", j1307)].
Definition j1309 := JArr [j7; j1308].
Definition j1310 := JArr [j3; j1309].
Definition j1311 := jobj [("source_type_decl", j2); ("source_module_path", j1284); ("bin_io_derived", (JBool true)); ("ref_rule", j1310)].
Definition j1312 := JArr [j10; j1311].
Definition j1313 := JArr [j9; j1312].
Definition j1314 := jobj [("field_name", j1283); ("field_rule", j1313)].
Definition j1315 := JArr [j1282; j1314].
Definition j1316 := JArr [j3; j1315].
Definition j1317 := jobj [("source_type_decl", j1276); ("source_module_path", j1277); ("bin_io_derived", (JBool true)); ("ref_rule", j1316)].
Definition j1318 := JArr [j10; j1317].
Definition j1319 := JArr [j9; j1318].
Definition j1320 := jobj [("field_name", j8); ("field_rule", j1319)].
Definition j1321 := JArr [j7; j1320].
Definition j1322 := JArr [j3; j1321].
Definition j1323 := jobj [("source_type_decl", j1274); ("source_module_path", j1275); ("bin_io_derived", (JBool true)); ("ref_rule", j1322)].
Definition j1324 := JArr [j10; j1323].
Definition j1325 := JArr [j9; j1324].
Definition j1326 := jobj [("field_name", j8); ("field_rule", j1325)].
Definition j1327 := JArr [j7; j1326].
Definition j1328 := JArr [j3; j1327].
Definition j1329 := jobj [("source_type_decl", j2); ("source_module_path", j1273); ("bin_io_derived", (JBool true)); ("ref_rule", j1328)].
Definition j1330 := JArr [j10; j1329].
Definition j1331 := JArr [j9; j1330].
Definition j1332 := jobj [("field_name", j1261); ("field_rule", j1331)].
Definition j1333 := jobj [("field_name", j1263); ("field_rule", j1331)].
Definition j1334 := JArr [j1332; j1333].
Definition j1335 := JArr [j3; j1334].
Definition j1336 := jobj [("source_type_decl", j1271); ("source_module_path", j1272); ("bin_io_derived", (JBool true)); ("ref_rule", j1335)].
Definition j1337 := JArr [j10; j1336].
Definition j1338 := JArr [j9; j1337].
Definition j1339 := jobj [("field_name", j8); ("field_rule", j1338)].
Definition j1340 := JArr [j7; j1339].
Definition j1341 := JArr [j3; j1340].
Definition j1342 := jobj [("source_type_decl", j1269); ("source_module_path", j1270); ("bin_io_derived", (JBool true)); ("ref_rule", j1341)].
Definition j1343 := JArr [j10; j1342].
Definition j1344 := JArr [j9; j1343].
Definition j1345 := jobj [("field_name", j8); ("field_rule", j1344)].
Definition j1346 := JArr [j7; j1345].
Definition j1347 := JArr [j3; j1346].
Definition j1348 := jobj [("source_type_decl", j2); ("source_module_path", j1268); ("bin_io_derived", (JBool true)); ("ref_rule", j1347)].
Definition j1349 := JArr [j10; j1348].
Definition j1350 := JArr [j9; j1349].
Definition j1351 := jobj [("field_name", j1267); ("field_rule", j1350)].
Definition j1352 := jstr "fee_excess".
Definition j1353 := jstr "Fee_excess".
Definition j1354 := jstr "type ('token, 'fee) t = { version: int ; t: ('token, 'fee) typ }".
Definition j1355 := jstr "Fee_excess.Poly".
Definition j1356 := jstr "type ('token, 'fee) t = { fee_token_l: 'token ; fee_excess_l: 'fee ; fee_token_r: 'token ; fee_excess_r: 'fee }".
Definition j1357 := jstr "Fee_excess.Poly.Stable.V1".
Definition j1358 := jstr "fee_token_l".
Definition j1359 := jobj [("field_name", j1358); ("field_rule", j310)].
Definition j1360 := jstr "fee_excess_l".
Definition j1361 := jstr "type ('magnitude, 'sgn) t = { version: int ; t: ('magnitude, 'sgn) typ }".
Definition j1362 := jstr "Signed_poly".
Definition j1363 := jstr "type ('magnitude, 'sgn) t = { magnitude: 'magnitude ; sgn: 'sgn }".
Definition j1364 := jstr "Signed_poly.Stable.V1".
Definition j1365 := jstr "magnitude".
Definition j1366 := jobj [("field_name", j1365); ("field_rule", j1243)].
Definition j1367 := jstr "sgn".
Definition j1368 := jstr "Sgn".
Definition j1369 := jstr "type t = Sgn_type.Sgn.Stable.V1.t = | Pos  | Neg ".
Definition j1370 := jstr "Sgn.Stable.V1".
Definition j1371 := jstr "Pos".
Definition j1372 := jobj [("ctor_name", j1371); ("index", (JNum (0))); ("ctor_args", j27)].
Definition j1373 := jstr "Neg".
Definition j1374 := jobj [("ctor_name", j1373); ("index", (JNum (1))); ("ctor_args", j27)].
Definition j1375 := JArr [j1372; j1374].
Definition j1376 := JArr [j93; j1375].
Definition j1377 := jobj [("source_type_decl", j1369); ("source_module_path", j1370); ("bin_io_derived", (JBool true)); ("ref_rule", j1376)].
Definition j1378 := JArr [j10; j1377].
Definition j1379 := JArr [j9; j1378].
Definition j1380 := jobj [("field_name", j8); ("field_rule", j1379)].
Definition j1381 := JArr [j7; j1380].
Definition j1382 := JArr [j3; j1381].
Definition j1383 := jobj [("source_type_decl", j2); ("source_module_path", j1368); ("bin_io_derived", (JBool true)); ("ref_rule", j1382)].
Definition j1384 := JArr [j10; j1383].
Definition j1385 := JArr [j9; j1384].
Definition j1386 := jobj [("field_name", j1367); ("field_rule", j1385)].
Definition j1387 := JArr [j1366; j1386].
Definition j1388 := JArr [j3; j1387].
Definition j1389 := jobj [("source_type_decl", j1363); ("source_module_path", j1364); ("bin_io_derived", (JBool true)); ("ref_rule", j1388)].
Definition j1390 := JArr [j10; j1389].
Definition j1391 := JArr [j9; j1390].
Definition j1392 := jobj [("field_name", j8); ("field_rule", j1391)].
Definition j1393 := JArr [j7; j1392].
Definition j1394 := JArr [j3; j1393].
Definition j1395 := jobj [("source_type_decl", j1361); ("source_module_path", j1362); ("bin_io_derived", (JBool true)); ("ref_rule", j1394)].
Definition j1396 := JArr [j10; j1395].
Definition j1397 := JArr [j9; j1396].
Definition j1398 := jobj [("field_name", j1360); ("field_rule", j1397)].
Definition j1399 := jstr "fee_token_r".
Definition j1400 := jobj [("field_name", j1399); ("field_rule", j310)].
Definition j1401 := jstr "fee_excess_r".
Definition j1402 := jobj [("field_name", j1401); ("field_rule", j1397)].
Definition j1403 := JArr [j1359; j1398; j1400; j1402].
Definition j1404 := JArr [j3; j1403].
Definition j1405 := jobj [("source_type_decl", j1356); ("source_module_path", j1357); ("bin_io_derived", (JBool true)); ("ref_rule", j1404)].
Definition j1406 := JArr [j10; j1405].
Definition j1407 := JArr [j9; j1406].
Definition j1408 := jobj [("field_name", j8); ("field_rule", j1407)].
Definition j1409 := JArr [j7; j1408].
Definition j1410 := JArr [j3; j1409].
Definition j1411 := jobj [("source_type_decl", j1354); ("source_module_path", j1355); ("bin_io_derived", (JBool true)); ("ref_rule", j1410)].
Definition j1412 := JArr [j10; j1411].
Definition j1413 := JArr [j9; j1412].
Definition j1414 := jobj [("field_name", j8); ("field_rule", j1413)].
Definition j1415 := JArr [j7; j1414].
Definition j1416 := JArr [j3; j1415].
Definition j1417 := jobj [("source_type_decl", j2); ("source_module_path", j1353); ("bin_io_derived", (JBool true)); ("ref_rule", j1416)].
Definition j1418 := JArr [j10; j1417].
Definition j1419 := JArr [j9; j1418].
Definition j1420 := jobj [("field_name", j1352); ("field_rule", j1419)].
Definition j1421 := jstr "next_available_token_before".
Definition j1422 := jobj [("field_name", j1421); ("field_rule", j310)].
Definition j1423 := jstr "next_available_token_after".
Definition j1424 := jobj [("field_name", j1423); ("field_rule", j310)].
Definition j1425 := jstr "sok_digest".
Definition j1426 := jstr "Sok_message.Digest".
Definition j1427 := jstr "Core_kernel.Option.Stable.V1.t".
Definition j1428 := jobj [("source_type_decl", j1427); ("source_module_path", j658); ("bin_io_derived", (JBool true)); ("ref_rule", j212)].
Definition j1429 := JArr [j10; j1428].
Definition j1430 := JArr [j9; j1429].
Definition j1431 := jobj [("field_name", j8); ("field_rule", j1430)].
Definition j1432 := JArr [j7; j1431].
Definition j1433 := JArr [j3; j1432].
Definition j1434 := jobj [("source_type_decl", j2); ("source_module_path", j1426); ("bin_io_derived", (JBool false)); ("ref_rule", j1433)].
Definition j1435 := JArr [j10; j1434].
Definition j1436 := JArr [j9; j1435].
Definition j1437 := jobj [("field_name", j1425); ("field_rule", j1436)].
Definition j1438 := JArr [j1262; j1264; j1266; j1351; j1420; j1422; j1424; j1437].
Definition j1439 := JArr [j3; j1438].
Definition j1440 := jobj [("source_type_decl", j1259); ("source_module_path", j1260); ("bin_io_derived", (JBool true)); ("ref_rule", j1439)].
Definition j1441 := JArr [j10; j1440].
Definition j1442 := JArr [j9; j1441].
Definition j1443 := jobj [("field_name", j8); ("field_rule", j1442)].
Definition j1444 := JArr [j7; j1443].
Definition j1445 := JArr [j3; j1444].
Definition j1446 := jobj [("source_type_decl", j1257); ("source_module_path", j1258); ("bin_io_derived", (JBool true)); ("ref_rule", j1445)].
Definition j1447 := JArr [j10; j1446].
Definition j1448 := JArr [j9; j1447].
Definition j1449 := jobj [("field_name", j8); ("field_rule", j1448)].
Definition j1450 := JArr [j7; j1449].
Definition j1451 := JArr [j3; j1450].
Definition j1452 := jobj [("source_type_decl", j2); ("source_module_path", j1256); ("bin_io_derived", (JBool true)); ("ref_rule", j1451)].
Definition j1453 := JArr [j10; j1452].
Definition j1454 := JArr [j9; j1453].
Definition j1455 := jobj [("field_name", j625); ("field_rule", j1454)].
Definition j1456 := jstr "Transaction_snark.Proof".
Definition j1457 := jobj [("source_type_decl", j2); ("source_module_path", j1456); ("bin_io_derived", (JBool true)); ("ref_rule", j1217)].
Definition j1458 := JArr [j10; j1457].
Definition j1459 := JArr [j9; j1458].
Definition j1460 := jobj [("field_name", j1022); ("field_rule", j1459)].
Definition j1461 := JArr [j1455; j1460].
Definition j1462 := JArr [j3; j1461].
Definition j1463 := jobj [("source_type_decl", j1254); ("source_module_path", j1255); ("bin_io_derived", (JBool true)); ("ref_rule", j1462)].
Definition j1464 := JArr [j10; j1463].
Definition j1465 := JArr [j9; j1464].
Definition j1466 := jobj [("field_name", j8); ("field_rule", j1465)].
Definition j1467 := JArr [j7; j1466].
Definition j1468 := JArr [j3; j1467].
Definition j1469 := jobj [("source_type_decl", j2); ("source_module_path", j1253); ("bin_io_derived", (JBool true)); ("ref_rule", j1468)].
Definition j1470 := JArr [j10; j1469].
Definition j1471 := JArr [j9; j1470].
Definition j1472 := jobj [("field_name", j8); ("field_rule", j1471)].
Definition j1473 := JArr [j7; j1472].
Definition j1474 := JArr [j3; j1473].
Definition j1475 := jobj [("source_type_decl", j2); ("source_module_path", j1252); ("bin_io_derived", (JBool true)); ("ref_rule", j1474)].
Definition j1476 := JArr [j10; j1475].
Definition j1477 := JArr [j9; j1476].
Definition j1478 := JArr [j1477].
Definition j1479 := jobj [("polyvar_name", j1251); ("hash", (JNum (3953222))); ("polyvar_args", j1478)].
Definition j1480 := JArr [j1250; j1479].
Definition j1481 := jstr "Two".
Definition j1482 := JArr [j1477; j1477].
Definition j1483 := JArr [j23; j1482].
Definition j1484 := JArr [j1483].
Definition j1485 := jobj [("polyvar_name", j1481); ("hash", (JNum (4203884))); ("polyvar_args", j1484)].
Definition j1486 := JArr [j1250; j1485].
Definition j1487 := JArr [j1480; j1486].
Definition j1488 := JArr [j1249; j1487].
Definition j1489 := jobj [("source_type_decl", j1247); ("source_module_path", j1248); ("bin_io_derived", (JBool true)); ("ref_rule", j1488)].
Definition j1490 := JArr [j10; j1489].
Definition j1491 := JArr [j9; j1490].
Definition j1492 := jobj [("field_name", j8); ("field_rule", j1491)].
Definition j1493 := JArr [j7; j1492].
Definition j1494 := JArr [j3; j1493].
Definition j1495 := jobj [("source_type_decl", j652); ("source_module_path", j1246); ("bin_io_derived", (JBool true)); ("ref_rule", j1494)].
Definition j1496 := JArr [j10; j1495].
Definition j1497 := JArr [j9; j1496].
Definition j1498 := jobj [("field_name", j1245); ("field_rule", j1497)].
Definition j1499 := jstr "prover".
Definition j1500 := jobj [("field_name", j1499); ("field_rule", j517)].
Definition j1501 := JArr [j1244; j1498; j1500].
Definition j1502 := JArr [j3; j1501].
Definition j1503 := jobj [("source_type_decl", j1237); ("source_module_path", j1238); ("bin_io_derived", (JBool true)); ("ref_rule", j1502)].
Definition j1504 := JArr [j10; j1503].
Definition j1505 := JArr [j9; j1504].
Definition j1506 := jobj [("field_name", j8); ("field_rule", j1505)].
Definition j1507 := JArr [j7; j1506].
Definition j1508 := JArr [j3; j1507].
Definition j1509 := jobj [("source_type_decl", j2); ("source_module_path", j1236); ("bin_io_derived", (JBool true)); ("ref_rule", j1508)].
Definition j1510 := JArr [j10; j1509].
Definition j1511 := JArr [j9; j1510].
Definition j1512 := JArr [j20; j1511].
Definition j1513 := jobj [("field_name", j1235); ("field_rule", j1512)].
Definition j1514 := jstr "commands".
Definition j1515 := jstr "With_status".
Definition j1516 := jstr "type 'a t = { data: 'a ; status: Transaction_status.Stable.V1.t }".
Definition j1517 := jstr "With_status.Stable.V1".
Definition j1518 := jstr "User_command".
Definition j1519 := jstr "type ('u, 's) t = { version: int ; t: ('u, 's) typ }".
Definition j1520 := jstr "User_command.Poly".
Definition j1521 := jstr "type ('u, 's) t = | Signed_command of 'u  | Snapp_command of 's ".
Definition j1522 := jstr "User_command.Poly.Stable.V1".
Definition j1523 := jstr "Signed_command".
Definition j1524 := jstr "type ('payload, 'pk, 'signature) t = { version: int ; t: ('payload, 'pk, 'signature) typ }".
Definition j1525 := jstr "Signed_command.Poly".
Definition j1526 := jstr "type ('payload, 'pk, 'signature) t = { payload: 'payload ; signer: 'pk ; signature: 'signature }".
Definition j1527 := jstr "Signed_command.Poly.Stable.V1".
Definition j1528 := jstr "payload".
Definition j1529 := jstr "Signed_command_payload".
Definition j1530 := jstr "type ('common, 'body) t = { version: int ; t: ('common, 'body) typ }".
Definition j1531 := jstr "Signed_command_payload.Poly".
Definition j1532 := jstr "type ('common, 'body) t = { common: 'common ; body: 'body }".
Definition j1533 := jstr "Signed_command_payload.Poly.Stable.V1".
Definition j1534 := jstr "common".
Definition j1535 := jstr "Signed_command_payload.Common".
Definition j1536 := jstr "Signed_command_payload.Common.Binable_arg".
Definition j1537 := jstr "type ('fee, 'public_key, 'token_id, 'nonce, 'global_slot, 'memo) t = { version: int ; t: ('fee, 'public_key, 'token_id, 'nonce, 'global_slot, 'memo) typ }".
Definition j1538 := jstr "Signed_command_payload.Common.Poly".
Definition j1539 := jstr "type ('fee, 'public_key, 'token_id, 'nonce, 'global_slot, 'memo) t = { fee: 'fee ; fee_token: 'token_id ; fee_payer_pk: 'public_key ; nonce: 'nonce ; valid_until: 'global_slot ; memo: 'memo }".
Definition j1540 := jstr "Signed_command_payload.Common.Poly.Stable.V1".
Definition j1541 := jstr "fee_token".
Definition j1542 := jobj [("field_name", j1541); ("field_rule", j310)].
Definition j1543 := jstr "fee_payer_pk".
Definition j1544 := jobj [("field_name", j1543); ("field_rule", j517)].
Definition j1545 := jstr "nonce".
Definition j1546 := jobj [("field_name", j1545); ("field_rule", j362)].
Definition j1547 := jstr "valid_until".
Definition j1548 := jobj [("field_name", j1547); ("field_rule", j362)].
Definition j1549 := jstr "memo".
Definition j1550 := jstr "Signed_command_memo".
Definition j1551 := jstr "Signed_command_memo.Stable.V1".
Definition j1552 := jobj [("source_type_decl", j209); ("source_module_path", j1551); ("bin_io_derived", (JBool true)); ("ref_rule", j212)].
Definition j1553 := JArr [j10; j1552].
Definition j1554 := JArr [j9; j1553].
Definition j1555 := jobj [("field_name", j8); ("field_rule", j1554)].
Definition j1556 := JArr [j7; j1555].
Definition j1557 := JArr [j3; j1556].
Definition j1558 := jobj [("source_type_decl", j2); ("source_module_path", j1550); ("bin_io_derived", (JBool true)); ("ref_rule", j1557)].
Definition j1559 := JArr [j10; j1558].
Definition j1560 := JArr [j9; j1559].
Definition j1561 := jobj [("field_name", j1549); ("field_rule", j1560)].
Definition j1562 := JArr [j1244; j1542; j1544; j1546; j1548; j1561].
Definition j1563 := JArr [j3; j1562].
Definition j1564 := jobj [("source_type_decl", j1539); ("source_module_path", j1540); ("bin_io_derived", (JBool true)); ("ref_rule", j1563)].
Definition j1565 := JArr [j10; j1564].
Definition j1566 := JArr [j9; j1565].
Definition j1567 := jobj [("field_name", j8); ("field_rule", j1566)].
Definition j1568 := JArr [j7; j1567].
Definition j1569 := JArr [j3; j1568].
Definition j1570 := jobj [("source_type_decl", j1537); ("source_module_path", j1538); ("bin_io_derived", (JBool true)); ("ref_rule", j1569)].
Definition j1571 := JArr [j10; j1570].
Definition j1572 := JArr [j9; j1571].
Definition j1573 := jobj [("field_name", j8); ("field_rule", j1572)].
Definition j1574 := JArr [j7; j1573].
Definition j1575 := JArr [j3; j1574].
Definition j1576 := jobj [("source_type_decl", j2); ("source_module_path", j1536); ("bin_io_derived", (JBool false)); ("ref_rule", j1575)].
Definition j1577 := JArr [j10; j1576].
Definition j1578 := JArr [j9; j1577].
Definition j1579 := jobj [("field_name", j8); ("field_rule", j1578)].
Definition j1580 := JArr [j7; j1579].
Definition j1581 := JArr [j3; j1580].
Definition j1582 := jobj [("source_type_decl", j2); ("source_module_path", j1535); ("bin_io_derived", (JBool false)); ("ref_rule", j1581)].
Definition j1583 := JArr [j10; j1582].
Definition j1584 := JArr [j9; j1583].
Definition j1585 := jobj [("field_name", j1534); ("field_rule", j1584)].
Definition j1586 := jstr "Signed_command_payload.Body".
Definition j1587 := jstr "Signed_command_payload.Body.Binable_arg".
Definition j1588 := jstr "type t = | Payment of Payment_payload.Stable.V1.t  | Stake_delegation of Stake_delegation.Stable.V1.t  | Create_new_token of New_token_payload.Stable.V1.t  | Create_token_account of New_account_payload.Stable.V1.t  | Mint_tokens of Minting_payload.Stable.V1.t ".
Definition j1589 := jstr "Signed_command_payload.Body.Binable_arg.Stable.V1".
Definition j1590 := jstr "Payment".
Definition j1591 := jstr "Payment_payload".
Definition j1592 := jstr "type ('public_key, 'token_id, 'amount) t = { version: int ; t: ('public_key, 'token_id, 'amount) typ }".
Definition j1593 := jstr "Payment_payload.Poly".
Definition j1594 := jstr "type ('public_key, 'token_id, 'amount) t = { source_pk: 'public_key ; receiver_pk: 'public_key ; token_id: 'token_id ; amount: 'amount }".
Definition j1595 := jstr "Payment_payload.Poly.Stable.V1".
Definition j1596 := jstr "source_pk".
Definition j1597 := jobj [("field_name", j1596); ("field_rule", j517)].
Definition j1598 := jstr "receiver_pk".
Definition j1599 := jobj [("field_name", j1598); ("field_rule", j517)].
Definition j1600 := jstr "token_id".
Definition j1601 := jobj [("field_name", j1600); ("field_rule", j310)].
Definition j1602 := jstr "amount".
Definition j1603 := jobj [("field_name", j1602); ("field_rule", j388)].
Definition j1604 := JArr [j1597; j1599; j1601; j1603].
Definition j1605 := JArr [j3; j1604].
Definition j1606 := jobj [("source_type_decl", j1594); ("source_module_path", j1595); ("bin_io_derived", (JBool true)); ("ref_rule", j1605)].
Definition j1607 := JArr [j10; j1606].
Definition j1608 := JArr [j9; j1607].
Definition j1609 := jobj [("field_name", j8); ("field_rule", j1608)].
Definition j1610 := JArr [j7; j1609].
Definition j1611 := JArr [j3; j1610].
Definition j1612 := jobj [("source_type_decl", j1592); ("source_module_path", j1593); ("bin_io_derived", (JBool true)); ("ref_rule", j1611)].
Definition j1613 := JArr [j10; j1612].
Definition j1614 := JArr [j9; j1613].
Definition j1615 := jobj [("field_name", j8); ("field_rule", j1614)].
Definition j1616 := JArr [j7; j1615].
Definition j1617 := JArr [j3; j1616].
Definition j1618 := jobj [("source_type_decl", j2); ("source_module_path", j1591); ("bin_io_derived", (JBool true)); ("ref_rule", j1617)].
Definition j1619 := JArr [j10; j1618].
Definition j1620 := JArr [j9; j1619].
Definition j1621 := JArr [j1620].
Definition j1622 := jobj [("ctor_name", j1590); ("index", (JNum (0))); ("ctor_args", j1621)].
Definition j1623 := jstr "Stake_delegation".
Definition j1624 := jstr "type t = | Set_delegate of { delegator: Public_key.Compressed.Stable.V1.t ; new_delegate: Public_key.Compressed.Stable.V1.t } ".
Definition j1625 := jstr "Stake_delegation.Stable.V1".
Definition j1626 := jstr "Set_delegate".
Definition j1627 := JArr [j517; j517].
Definition j1628 := jobj [("ctor_name", j1626); ("index", (JNum (0))); ("ctor_args", j1627)].
Definition j1629 := JArr [j1628].
Definition j1630 := JArr [j93; j1629].
Definition j1631 := jobj [("source_type_decl", j1624); ("source_module_path", j1625); ("bin_io_derived", (JBool true)); ("ref_rule", j1630)].
Definition j1632 := JArr [j10; j1631].
Definition j1633 := JArr [j9; j1632].
Definition j1634 := jobj [("field_name", j8); ("field_rule", j1633)].
Definition j1635 := JArr [j7; j1634].
Definition j1636 := JArr [j3; j1635].
Definition j1637 := jobj [("source_type_decl", j2); ("source_module_path", j1623); ("bin_io_derived", (JBool true)); ("ref_rule", j1636)].
Definition j1638 := JArr [j10; j1637].
Definition j1639 := JArr [j9; j1638].
Definition j1640 := JArr [j1639].
Definition j1641 := jobj [("ctor_name", j1623); ("index", (JNum (1))); ("ctor_args", j1640)].
Definition j1642 := jstr "Create_new_token".
Definition j1643 := jstr "New_token_payload".
Definition j1644 := jstr "type t = { token_owner_pk: Public_key.Compressed.Stable.V1.t ; disable_new_accounts: bool }".
Definition j1645 := jstr "New_token_payload.Stable.V1".
Definition j1646 := jstr "token_owner_pk".
Definition j1647 := jobj [("field_name", j1646); ("field_rule", j517)].
Definition j1648 := jstr "disable_new_accounts".
Definition j1649 := jobj [("field_name", j1648); ("field_rule", j490)].
Definition j1650 := JArr [j1647; j1649].
Definition j1651 := JArr [j3; j1650].
Definition j1652 := jobj [("source_type_decl", j1644); ("source_module_path", j1645); ("bin_io_derived", (JBool true)); ("ref_rule", j1651)].
Definition j1653 := JArr [j10; j1652].
Definition j1654 := JArr [j9; j1653].
Definition j1655 := jobj [("field_name", j8); ("field_rule", j1654)].
Definition j1656 := JArr [j7; j1655].
Definition j1657 := JArr [j3; j1656].
Definition j1658 := jobj [("source_type_decl", j2); ("source_module_path", j1643); ("bin_io_derived", (JBool true)); ("ref_rule", j1657)].
Definition j1659 := JArr [j10; j1658].
Definition j1660 := JArr [j9; j1659].
Definition j1661 := JArr [j1660].
Definition j1662 := jobj [("ctor_name", j1642); ("index", (JNum (2))); ("ctor_args", j1661)].
Definition j1663 := jstr "Create_token_account".
Definition j1664 := jstr "New_account_payload".
Definition j1665 := jstr "type t = { token_id: Token_id.Stable.V1.t ; token_owner_pk: Public_key.Compressed.Stable.V1.t ; receiver_pk: Public_key.Compressed.Stable.V1.t ; account_disabled: bool }".
Definition j1666 := jstr "New_account_payload.Stable.V1".
Definition j1667 := jstr "account_disabled".
Definition j1668 := jobj [("field_name", j1667); ("field_rule", j490)].
Definition j1669 := JArr [j1601; j1647; j1599; j1668].
Definition j1670 := JArr [j3; j1669].
Definition j1671 := jobj [("source_type_decl", j1665); ("source_module_path", j1666); ("bin_io_derived", (JBool true)); ("ref_rule", j1670)].
Definition j1672 := JArr [j10; j1671].
Definition j1673 := JArr [j9; j1672].
Definition j1674 := jobj [("field_name", j8); ("field_rule", j1673)].
Definition j1675 := JArr [j7; j1674].
Definition j1676 := JArr [j3; j1675].
Definition j1677 := jobj [("source_type_decl", j2); ("source_module_path", j1664); ("bin_io_derived", (JBool true)); ("ref_rule", j1676)].
Definition j1678 := JArr [j10; j1677].
Definition j1679 := JArr [j9; j1678].
Definition j1680 := JArr [j1679].
Definition j1681 := jobj [("ctor_name", j1663); ("index", (JNum (3))); ("ctor_args", j1680)].
Definition j1682 := jstr "Mint_tokens".
Definition j1683 := jstr "Minting_payload".
Definition j1684 := jstr "type t = { token_id: Token_id.Stable.V1.t ; token_owner_pk: Public_key.Compressed.Stable.V1.t ; receiver_pk: Public_key.Compressed.Stable.V1.t ; amount: Currency.Amount.Stable.V1.t }".
Definition j1685 := jstr "Minting_payload.Stable.V1".
Definition j1686 := JArr [j1601; j1647; j1599; j1603].
Definition j1687 := JArr [j3; j1686].
Definition j1688 := jobj [("source_type_decl", j1684); ("source_module_path", j1685); ("bin_io_derived", (JBool true)); ("ref_rule", j1687)].
Definition j1689 := JArr [j10; j1688].
Definition j1690 := JArr [j9; j1689].
Definition j1691 := jobj [("field_name", j8); ("field_rule", j1690)].
Definition j1692 := JArr [j7; j1691].
Definition j1693 := JArr [j3; j1692].
Definition j1694 := jobj [("source_type_decl", j2); ("source_module_path", j1683); ("bin_io_derived", (JBool true)); ("ref_rule", j1693)].
Definition j1695 := JArr [j10; j1694].
Definition j1696 := JArr [j9; j1695].
Definition j1697 := JArr [j1696].
Definition j1698 := jobj [("ctor_name", j1682); ("index", (JNum (4))); ("ctor_args", j1697)].
Definition j1699 := JArr [j1622; j1641; j1662; j1681; j1698].
Definition j1700 := JArr [j93; j1699].
Definition j1701 := jobj [("source_type_decl", j1588); ("source_module_path", j1589); ("bin_io_derived", (JBool true)); ("ref_rule", j1700)].
Definition j1702 := JArr [j10; j1701].
Definition j1703 := JArr [j9; j1702].
Definition j1704 := jobj [("field_name", j8); ("field_rule", j1703)].
Definition j1705 := JArr [j7; j1704].
Definition j1706 := JArr [j3; j1705].
Definition j1707 := jobj [("source_type_decl", j2); ("source_module_path", j1587); ("bin_io_derived", (JBool false)); ("ref_rule", j1706)].
Definition j1708 := JArr [j10; j1707].
Definition j1709 := JArr [j9; j1708].
Definition j1710 := jobj [("field_name", j8); ("field_rule", j1709)].
Definition j1711 := JArr [j7; j1710].
Definition j1712 := JArr [j3; j1711].
Definition j1713 := jobj [("source_type_decl", j2); ("source_module_path", j1586); ("bin_io_derived", (JBool false)); ("ref_rule", j1712)].
Definition j1714 := JArr [j10; j1713].
Definition j1715 := JArr [j9; j1714].
Definition j1716 := jobj [("field_name", j177); ("field_rule", j1715)].
Definition j1717 := JArr [j1585; j1716].
Definition j1718 := JArr [j3; j1717].
Definition j1719 := jobj [("source_type_decl", j1532); ("source_module_path", j1533); ("bin_io_derived", (JBool true)); ("ref_rule", j1718)].
Definition j1720 := JArr [j10; j1719].
Definition j1721 := JArr [j9; j1720].
Definition j1722 := jobj [("field_name", j8); ("field_rule", j1721)].
Definition j1723 := JArr [j7; j1722].
Definition j1724 := JArr [j3; j1723].
Definition j1725 := jobj [("source_type_decl", j1530); ("source_module_path", j1531); ("bin_io_derived", (JBool true)); ("ref_rule", j1724)].
Definition j1726 := JArr [j10; j1725].
Definition j1727 := JArr [j9; j1726].
Definition j1728 := jobj [("field_name", j8); ("field_rule", j1727)].
Definition j1729 := JArr [j7; j1728].
Definition j1730 := JArr [j3; j1729].
Definition j1731 := jobj [("source_type_decl", j2); ("source_module_path", j1529); ("bin_io_derived", (JBool true)); ("ref_rule", j1730)].
Definition j1732 := JArr [j10; j1731].
Definition j1733 := JArr [j9; j1732].
Definition j1734 := jobj [("field_name", j1528); ("field_rule", j1733)].
Definition j1735 := jstr "signer".
Definition j1736 := jstr "Non_zero_curve_point.Uncompressed".
Definition j1737 := jobj [("field_name", j8); ("field_rule", j517)].
Definition j1738 := JArr [j7; j1737].
Definition j1739 := JArr [j3; j1738].
Definition j1740 := jobj [("source_type_decl", j2); ("source_module_path", j1736); ("bin_io_derived", (JBool false)); ("ref_rule", j1739)].
Definition j1741 := JArr [j10; j1740].
Definition j1742 := JArr [j9; j1741].
Definition j1743 := jobj [("field_name", j1735); ("field_rule", j1742)].
Definition j1744 := jstr "signature".
Definition j1745 := jstr "Signature".
Definition j1746 := jstr "type ('field, 'scalar) t = { version: int ; t: ('field, 'scalar) typ }".
Definition j1747 := jstr "Signature_poly".
Definition j1748 := jstr "type ('field, 'scalar) t = ('field * 'scalar)".
Definition j1749 := jstr "Signature_poly.Stable.V1".
Definition j1750 := jstr "T.t".
Definition j1751 := jstr "Snark_params.Make_inner_curve_scalar".
Definition j1752 := jobj [("source_type_decl", j1750); ("source_module_path", j1751); ("bin_io_derived", (JBool false)); ("ref_rule", j28)].
Definition j1753 := JArr [j10; j1752].
Definition j1754 := JArr [j9; j1753].
Definition j1755 := JArr [j169; j1754].
Definition j1756 := JArr [j23; j1755].
Definition j1757 := jobj [("source_type_decl", j1748); ("source_module_path", j1749); ("bin_io_derived", (JBool true)); ("ref_rule", j1756)].
Definition j1758 := JArr [j10; j1757].
Definition j1759 := JArr [j9; j1758].
Definition j1760 := jobj [("field_name", j8); ("field_rule", j1759)].
Definition j1761 := JArr [j7; j1760].
Definition j1762 := JArr [j3; j1761].
Definition j1763 := jobj [("source_type_decl", j1746); ("source_module_path", j1747); ("bin_io_derived", (JBool true)); ("ref_rule", j1762)].
Definition j1764 := JArr [j10; j1763].
Definition j1765 := JArr [j9; j1764].
Definition j1766 := jobj [("field_name", j8); ("field_rule", j1765)].
Definition j1767 := JArr [j7; j1766].
Definition j1768 := JArr [j3; j1767].
Definition j1769 := jobj [("source_type_decl", j2); ("source_module_path", j1745); ("bin_io_derived", (JBool false)); ("ref_rule", j1768)].
Definition j1770 := JArr [j10; j1769].
Definition j1771 := JArr [j9; j1770].
Definition j1772 := jobj [("field_name", j1744); ("field_rule", j1771)].
Definition j1773 := JArr [j1734; j1743; j1772].
Definition j1774 := JArr [j3; j1773].
Definition j1775 := jobj [("source_type_decl", j1526); ("source_module_path", j1527); ("bin_io_derived", (JBool true)); ("ref_rule", j1774)].
Definition j1776 := JArr [j10; j1775].
Definition j1777 := JArr [j9; j1776].
Definition j1778 := jobj [("field_name", j8); ("field_rule", j1777)].
Definition j1779 := JArr [j7; j1778].
Definition j1780 := JArr [j3; j1779].
Definition j1781 := jobj [("source_type_decl", j1524); ("source_module_path", j1525); ("bin_io_derived", (JBool true)); ("ref_rule", j1780)].
Definition j1782 := JArr [j10; j1781].
Definition j1783 := JArr [j9; j1782].
Definition j1784 := jobj [("field_name", j8); ("field_rule", j1783)].
Definition j1785 := JArr [j7; j1784].
Definition j1786 := JArr [j3; j1785].
Definition j1787 := jobj [("source_type_decl", j2); ("source_module_path", j1523); ("bin_io_derived", (JBool true)); ("ref_rule", j1786)].
Definition j1788 := JArr [j10; j1787].
Definition j1789 := JArr [j9; j1788].
Definition j1790 := JArr [j1789].
Definition j1791 := jobj [("ctor_name", j1523); ("index", (JNum (0))); ("ctor_args", j1790)].
Definition j1792 := jstr "Snapp_command".
Definition j1793 := jstr "Snapp_command.Binable_arg".
Definition j1794 := jstr "type t = | Proved_empty of (Party.Authorized.Proved.Stable.V1.t, Party.Authorized.Empty.Stable.V1.t option) Inner.Stable.V1.t  | Proved_signed of (Party.Authorized.Proved.Stable.V1.t, Party.Authorized.Signed.Stable.V1.t) Inner.Stable.V1.t  | Proved_proved of (Party.Authorized.Proved.Stable.V1.t, Party.Authorized.Proved.Stable.V1.t) Inner.Stable.V1.t  | Signed_signed of (Party.Authorized.Signed.Stable.V1.t, Party.Authorized.Signed.Stable.V1.t) Inner.Stable.V1.t  | Signed_empty of (Party.Authorized.Signed.Stable.V1.t, Party.Authorized.Empty.Stable.V1.t option) Inner.Stable.V1.t ".
Definition j1795 := jstr "Snapp_command.Binable_arg.Stable.V1".
Definition j1796 := jstr "Proved_empty".
Definition j1797 := jstr "type ('one, 'two) t = { version: int ; t: ('one, 'two) typ }".
Definition j1798 := jstr "Snapp_command.Inner".
Definition j1799 := jstr "type ('one, 'two) t = { token_id: Token_id.Stable.V1.t ; fee_payment: Other_fee_payer.Stable.V1.t option ; one: 'one ; two: 'two }".
Definition j1800 := jstr "Snapp_command.Inner.Stable.V1".
Definition j1801 := jstr "fee_payment".
Definition j1802 := jstr "Option".
Definition j1803 := jstr "Other_fee_payer".
Definition j1804 := jstr "type t = { payload: Payload.Stable.V1.t ; signature: Signature.Stable.V1.t }".
Definition j1805 := jstr "Other_fee_payer.Stable.V1".
Definition j1806 := jstr "Other_fee_payer.Payload".
Definition j1807 := jstr "type ('pk, 'token_id, 'nonce, 'fee) t = { version: int ; t: ('pk, 'token_id, 'nonce, 'fee) typ }".
Definition j1808 := jstr "Other_fee_payer.Payload.Poly".
Definition j1809 := jstr "type ('pk, 'token_id, 'nonce, 'fee) t = { pk: 'pk ; token_id: 'token_id ; nonce: 'nonce ; fee: 'fee }".
Definition j1810 := jstr "Other_fee_payer.Payload.Poly.Stable.V1".
Definition j1811 := jstr "pk".
Definition j1812 := jobj [("field_name", j1811); ("field_rule", j517)].
Definition j1813 := JArr [j1812; j1601; j1546; j1244].
Definition j1814 := JArr [j3; j1813].
Definition j1815 := jobj [("source_type_decl", j1809); ("source_module_path", j1810); ("bin_io_derived", (JBool true)); ("ref_rule", j1814)].
Definition j1816 := JArr [j10; j1815].
Definition j1817 := JArr [j9; j1816].
Definition j1818 := jobj [("field_name", j8); ("field_rule", j1817)].
Definition j1819 := JArr [j7; j1818].
Definition j1820 := JArr [j3; j1819].
Definition j1821 := jobj [("source_type_decl", j1807); ("source_module_path", j1808); ("bin_io_derived", (JBool true)); ("ref_rule", j1820)].
Definition j1822 := JArr [j10; j1821].
Definition j1823 := JArr [j9; j1822].
Definition j1824 := jobj [("field_name", j8); ("field_rule", j1823)].
Definition j1825 := JArr [j7; j1824].
Definition j1826 := JArr [j3; j1825].
Definition j1827 := jobj [("source_type_decl", j2); ("source_module_path", j1806); ("bin_io_derived", (JBool true)); ("ref_rule", j1826)].
Definition j1828 := JArr [j10; j1827].
Definition j1829 := JArr [j9; j1828].
Definition j1830 := jobj [("field_name", j1528); ("field_rule", j1829)].
Definition j1831 := JArr [j1830; j1772].
Definition j1832 := JArr [j3; j1831].
Definition j1833 := jobj [("source_type_decl", j1804); ("source_module_path", j1805); ("bin_io_derived", (JBool true)); ("ref_rule", j1832)].
Definition j1834 := JArr [j10; j1833].
Definition j1835 := JArr [j9; j1834].
Definition j1836 := jobj [("field_name", j8); ("field_rule", j1835)].
Definition j1837 := JArr [j7; j1836].
Definition j1838 := JArr [j3; j1837].
Definition j1839 := jobj [("source_type_decl", j2); ("source_module_path", j1803); ("bin_io_derived", (JBool true)); ("ref_rule", j1838)].
Definition j1840 := JArr [j10; j1839].
Definition j1841 := JArr [j9; j1840].
Definition j1842 := JArr [j1802; j1841].
Definition j1843 := jobj [("field_name", j1801); ("field_rule", j1842)].
Definition j1844 := jstr "one".
Definition j1845 := jstr "Snapp_command.Party.Authorized.Proved".
Definition j1846 := jstr "type ('data, 'auth) t = { version: int ; t: ('data, 'auth) typ }".
Definition j1847 := jstr "Snapp_command.Party.Authorized.Poly".
Definition j1848 := jstr "type ('data, 'auth) t = { data: 'data ; authorization: 'auth }".
Definition j1849 := jstr "Snapp_command.Party.Authorized.Poly.Stable.V1".
Definition j1850 := jstr "Snapp_command.Party.Predicated.Proved".
Definition j1851 := jstr "type ('body, 'predicate) t = { version: int ; t: ('body, 'predicate) typ }".
Definition j1852 := jstr "Snapp_command.Party.Predicated.Poly".
Definition j1853 := jstr "type ('body, 'predicate) t = { body: 'body ; predicate: 'predicate }".
Definition j1854 := jstr "Snapp_command.Party.Predicated.Poly.Stable.V1".
Definition j1855 := jstr "Snapp_command.Party.Body".
Definition j1856 := jstr "type ('pk, 'update, 'signed_amount) t = { version: int ; t: ('pk, 'update, 'signed_amount) typ }".
Definition j1857 := jstr "Snapp_command.Party.Body.Poly".
Definition j1858 := jstr "type ('pk, 'update, 'signed_amount) t = { pk: 'pk ; update: 'update ; delta: 'signed_amount }".
Definition j1859 := jstr "Snapp_command.Party.Body.Poly.Stable.V1".
Definition j1860 := jstr "update".
Definition j1861 := jstr "Snapp_command.Party.Update".
Definition j1862 := jstr "type ('state_element, 'pk, 'vk, 'perms) t = { version: int ; t: ('state_element, 'pk, 'vk, 'perms) typ }".
Definition j1863 := jstr "Snapp_command.Party.Update.Poly".
Definition j1864 := jstr "type ('state_element, 'pk, 'vk, 'perms) t = { app_state: 'state_element Snapp_state.V.Stable.V1.t ; delegate: 'pk ; verification_key: 'vk ; permissions: 'perms }".
Definition j1865 := jstr "Snapp_command.Party.Update.Poly.Stable.V1".
Definition j1866 := jstr "Snapp_state.V".
Definition j1867 := jstr "Vector.Vector_8".
Definition j1868 := jstr "Pickles_types.Vector.Vector8".
Definition j1869 := jstr "Snapp_basic.Set_or_keep".
Definition j1870 := jstr "type 'a t = | Set of 'a  | Keep ".
Definition j1871 := jstr "Snapp_basic.Set_or_keep.Stable.V1".
Definition j1872 := jstr "Set".
Definition j1873 := jobj [("ctor_name", j1872); ("index", (JNum (0))); ("ctor_args", j715)].
Definition j1874 := jstr "Keep".
Definition j1875 := jobj [("ctor_name", j1874); ("index", (JNum (1))); ("ctor_args", j27)].
Definition j1876 := JArr [j1873; j1875].
Definition j1877 := JArr [j93; j1876].
Definition j1878 := jobj [("source_type_decl", j1870); ("source_module_path", j1871); ("bin_io_derived", (JBool true)); ("ref_rule", j1877)].
Definition j1879 := JArr [j10; j1878].
Definition j1880 := JArr [j9; j1879].
Definition j1881 := jobj [("field_name", j8); ("field_rule", j1880)].
Definition j1882 := JArr [j7; j1881].
Definition j1883 := JArr [j3; j1882].
Definition j1884 := jobj [("source_type_decl", j652); ("source_module_path", j1869); ("bin_io_derived", (JBool true)); ("ref_rule", j1883)].
Definition j1885 := JArr [j10; j1884].
Definition j1886 := JArr [j9; j1885].
Definition j1887 := JArr [j1886].
Definition j1888 := JArr [j26; j1887].
Definition j1889 := jobj [("source_type_decl", j736); ("source_module_path", j1868); ("bin_io_derived", (JBool false)); ("ref_rule", j1888)].
Definition j1890 := JArr [j10; j1889].
Definition j1891 := JArr [j9; j1890].
Definition j1892 := jobj [("field_name", j8); ("field_rule", j1891)].
Definition j1893 := JArr [j7; j1892].
Definition j1894 := JArr [j3; j1893].
Definition j1895 := jobj [("source_type_decl", j652); ("source_module_path", j1867); ("bin_io_derived", (JBool false)); ("ref_rule", j1894)].
Definition j1896 := JArr [j10; j1895].
Definition j1897 := JArr [j9; j1896].
Definition j1898 := jobj [("field_name", j8); ("field_rule", j1897)].
Definition j1899 := JArr [j7; j1898].
Definition j1900 := JArr [j3; j1899].
Definition j1901 := jobj [("source_type_decl", j652); ("source_module_path", j1866); ("bin_io_derived", (JBool true)); ("ref_rule", j1900)].
Definition j1902 := JArr [j10; j1901].
Definition j1903 := JArr [j9; j1902].
Definition j1904 := jobj [("field_name", j896); ("field_rule", j1903)].
Definition j1905 := jstr "delegate".
Definition j1906 := JArr [j517].
Definition j1907 := jobj [("ctor_name", j1872); ("index", (JNum (0))); ("ctor_args", j1906)].
Definition j1908 := JArr [j1907; j1875].
Definition j1909 := JArr [j93; j1908].
Definition j1910 := jobj [("source_type_decl", j1870); ("source_module_path", j1871); ("bin_io_derived", (JBool true)); ("ref_rule", j1909)].
Definition j1911 := JArr [j10; j1910].
Definition j1912 := JArr [j9; j1911].
Definition j1913 := jobj [("field_name", j8); ("field_rule", j1912)].
Definition j1914 := JArr [j7; j1913].
Definition j1915 := JArr [j3; j1914].
Definition j1916 := jobj [("source_type_decl", j652); ("source_module_path", j1869); ("bin_io_derived", (JBool true)); ("ref_rule", j1915)].
Definition j1917 := JArr [j10; j1916].
Definition j1918 := JArr [j9; j1917].
Definition j1919 := jobj [("field_name", j1905); ("field_rule", j1918)].
Definition j1920 := jstr "verification_key".
Definition j1921 := jstr "type ('a, 'h) t = { version: int ; t: ('a, 'h) typ }".
Definition j1922 := jstr "With_hash".
Definition j1923 := jstr "type ('a, 'h) t = { data: 'a ; hash: 'h }".
Definition j1924 := jstr "With_hash.Stable.V1".
Definition j1925 := jstr "Side_loaded_verification_key".
Definition j1926 := jstr "Side_loaded_verification_key.R".
Definition j1927 := jstr "Side_loaded_verification_key.Repr".
Definition j1928 := jstr "type 'g t = { step_data: (Domain.Stable.V1.t Domains.Stable.V1.t * Width.Stable.V1.t) Max_branches_vec.Stable.V1.t ; max_width: Width.Stable.V1.t ; wrap_index: 'g list Plonk_verification_key_evals.Stable.V1.t }".
Definition j1929 := jstr "Side_loaded_verification_key.Repr.Stable.V1".
Definition j1930 := jstr "step_data".
Definition j1931 := jstr "Side_loaded_verification_key.Max_branches_vec".
Definition j1932 := jstr "At_most.At_most_8".
Definition j1933 := jstr "Side_loaded_verification_key.Domains".
Definition j1934 := jstr "type 'a t = { h: 'a }".
Definition j1935 := jstr "Side_loaded_verification_key.Domains.Stable.V1".
Definition j1936 := JArr [j108].
Definition j1937 := JArr [j3; j1936].
Definition j1938 := jobj [("source_type_decl", j1934); ("source_module_path", j1935); ("bin_io_derived", (JBool true)); ("ref_rule", j1937)].
Definition j1939 := JArr [j10; j1938].
Definition j1940 := JArr [j9; j1939].
Definition j1941 := jobj [("field_name", j8); ("field_rule", j1940)].
Definition j1942 := JArr [j7; j1941].
Definition j1943 := JArr [j3; j1942].
Definition j1944 := jobj [("source_type_decl", j652); ("source_module_path", j1933); ("bin_io_derived", (JBool true)); ("ref_rule", j1943)].
Definition j1945 := JArr [j10; j1944].
Definition j1946 := JArr [j9; j1945].
Definition j1947 := jstr "Side_loaded_verification_key.Width".
Definition j1948 := jstr "Side_loaded_verification_key.Width.Stable.V1".
Definition j1949 := jobj [("source_type_decl", j775); ("source_module_path", j1948); ("bin_io_derived", (JBool true)); ("ref_rule", j778)].
Definition j1950 := JArr [j10; j1949].
Definition j1951 := JArr [j9; j1950].
Definition j1952 := jobj [("field_name", j8); ("field_rule", j1951)].
Definition j1953 := JArr [j7; j1952].
Definition j1954 := JArr [j3; j1953].
Definition j1955 := jobj [("source_type_decl", j2); ("source_module_path", j1947); ("bin_io_derived", (JBool true)); ("ref_rule", j1954)].
Definition j1956 := JArr [j10; j1955].
Definition j1957 := JArr [j9; j1956].
Definition j1958 := JArr [j1946; j1957].
Definition j1959 := JArr [j23; j1958].
Definition j1960 := JArr [j20; j1959].
Definition j1961 := jobj [("source_type_decl", j901); ("source_module_path", j658); ("bin_io_derived", (JBool true)); ("ref_rule", j1960)].
Definition j1962 := JArr [j10; j1961].
Definition j1963 := JArr [j9; j1962].
Definition j1964 := jobj [("field_name", j8); ("field_rule", j1963)].
Definition j1965 := JArr [j7; j1964].
Definition j1966 := JArr [j3; j1965].
Definition j1967 := jobj [("source_type_decl", j652); ("source_module_path", j1932); ("bin_io_derived", (JBool false)); ("ref_rule", j1966)].
Definition j1968 := JArr [j10; j1967].
Definition j1969 := JArr [j9; j1968].
Definition j1970 := jobj [("field_name", j8); ("field_rule", j1969)].
Definition j1971 := JArr [j7; j1970].
Definition j1972 := JArr [j3; j1971].
Definition j1973 := jobj [("source_type_decl", j652); ("source_module_path", j1931); ("bin_io_derived", (JBool true)); ("ref_rule", j1972)].
Definition j1974 := JArr [j10; j1973].
Definition j1975 := JArr [j9; j1974].
Definition j1976 := jobj [("field_name", j1930); ("field_rule", j1975)].
Definition j1977 := jstr "max_width".
Definition j1978 := jobj [("field_name", j1977); ("field_rule", j1957)].
Definition j1979 := jstr "wrap_index".
Definition j1980 := jobj [("field_name", j1979); ("field_rule", j83)].
Definition j1981 := JArr [j1976; j1978; j1980].
Definition j1982 := JArr [j3; j1981].
Definition j1983 := jobj [("source_type_decl", j1928); ("source_module_path", j1929); ("bin_io_derived", (JBool true)); ("ref_rule", j1982)].
Definition j1984 := JArr [j10; j1983].
Definition j1985 := JArr [j9; j1984].
Definition j1986 := jobj [("field_name", j8); ("field_rule", j1985)].
Definition j1987 := JArr [j7; j1986].
Definition j1988 := JArr [j3; j1987].
Definition j1989 := jobj [("source_type_decl", j1034); ("source_module_path", j1927); ("bin_io_derived", (JBool true)); ("ref_rule", j1988)].
Definition j1990 := JArr [j10; j1989].
Definition j1991 := JArr [j9; j1990].
Definition j1992 := jobj [("field_name", j8); ("field_rule", j1991)].
Definition j1993 := JArr [j7; j1992].
Definition j1994 := JArr [j3; j1993].
Definition j1995 := jobj [("source_type_decl", j2); ("source_module_path", j1926); ("bin_io_derived", (JBool false)); ("ref_rule", j1994)].
Definition j1996 := JArr [j10; j1995].
Definition j1997 := JArr [j9; j1996].
Definition j1998 := jobj [("field_name", j8); ("field_rule", j1997)].
Definition j1999 := JArr [j7; j1998].
Definition j2000 := JArr [j3; j1999].
Definition j2001 := jobj [("source_type_decl", j2); ("source_module_path", j1925); ("bin_io_derived", (JBool false)); ("ref_rule", j2000)].
Definition j2002 := JArr [j10; j2001].
Definition j2003 := JArr [j9; j2002].
Definition j2004 := jobj [("field_name", j124); ("field_rule", j2003)].
Definition j2005 := jobj [("field_name", j432); ("field_rule", j31)].
Definition j2006 := JArr [j2004; j2005].
Definition j2007 := JArr [j3; j2006].
Definition j2008 := jobj [("source_type_decl", j1923); ("source_module_path", j1924); ("bin_io_derived", (JBool true)); ("ref_rule", j2007)].
Definition j2009 := JArr [j10; j2008].
Definition j2010 := JArr [j9; j2009].
Definition j2011 := jobj [("field_name", j8); ("field_rule", j2010)].
Definition j2012 := JArr [j7; j2011].
Definition j2013 := JArr [j3; j2012].
Definition j2014 := jobj [("source_type_decl", j1921); ("source_module_path", j1922); ("bin_io_derived", (JBool true)); ("ref_rule", j2013)].
Definition j2015 := JArr [j10; j2014].
Definition j2016 := JArr [j9; j2015].
Definition j2017 := JArr [j2016].
Definition j2018 := jobj [("ctor_name", j1872); ("index", (JNum (0))); ("ctor_args", j2017)].
Definition j2019 := JArr [j2018; j1875].
Definition j2020 := JArr [j93; j2019].
Definition j2021 := jobj [("source_type_decl", j1870); ("source_module_path", j1871); ("bin_io_derived", (JBool true)); ("ref_rule", j2020)].
Definition j2022 := JArr [j10; j2021].
Definition j2023 := JArr [j9; j2022].
Definition j2024 := jobj [("field_name", j8); ("field_rule", j2023)].
Definition j2025 := JArr [j7; j2024].
Definition j2026 := JArr [j3; j2025].
Definition j2027 := jobj [("source_type_decl", j652); ("source_module_path", j1869); ("bin_io_derived", (JBool true)); ("ref_rule", j2026)].
Definition j2028 := JArr [j10; j2027].
Definition j2029 := JArr [j9; j2028].
Definition j2030 := jobj [("field_name", j1920); ("field_rule", j2029)].
Definition j2031 := jstr "permissions".
Definition j2032 := jstr "Permissions".
Definition j2033 := jstr "type ('bool, 'controller) t = { version: int ; t: ('bool, 'controller) typ }".
Definition j2034 := jstr "Permissions.Poly".
Definition j2035 := jstr "type ('bool, 'controller) t = { stake: 'bool ; edit_state: 'controller ; send: 'controller ; receive: 'controller ; set_delegate: 'controller ; set_permissions: 'controller ; set_verification_key: 'controller }".
Definition j2036 := jstr "Permissions.Poly.Stable.V1".
Definition j2037 := jstr "stake".
Definition j2038 := jobj [("field_name", j2037); ("field_rule", j490)].
Definition j2039 := jstr "edit_state".
Definition j2040 := jstr "Permissions.Auth_required".
Definition j2041 := jstr "type t = | None  | Either  | Proof  | Signature  | Both  | Impossible ".
Definition j2042 := jstr "Permissions.Auth_required.Stable.V1".
Definition j2043 := jstr "None".
Definition j2044 := jobj [("ctor_name", j2043); ("index", (JNum (0))); ("ctor_args", j27)].
Definition j2045 := jstr "Either".
Definition j2046 := jobj [("ctor_name", j2045); ("index", (JNum (1))); ("ctor_args", j27)].
Definition j2047 := jobj [("ctor_name", j618); ("index", (JNum (2))); ("ctor_args", j27)].
Definition j2048 := jobj [("ctor_name", j1745); ("index", (JNum (3))); ("ctor_args", j27)].
Definition j2049 := jstr "Both".
Definition j2050 := jobj [("ctor_name", j2049); ("index", (JNum (4))); ("ctor_args", j27)].
Definition j2051 := jstr "Impossible".
Definition j2052 := jobj [("ctor_name", j2051); ("index", (JNum (5))); ("ctor_args", j27)].
Definition j2053 := JArr [j2044; j2046; j2047; j2048; j2050; j2052].
Definition j2054 := JArr [j93; j2053].
Definition j2055 := jobj [("source_type_decl", j2041); ("source_module_path", j2042); ("bin_io_derived", (JBool true)); ("ref_rule", j2054)].
Definition j2056 := JArr [j10; j2055].
Definition j2057 := JArr [j9; j2056].
Definition j2058 := jobj [("field_name", j8); ("field_rule", j2057)].
Definition j2059 := JArr [j7; j2058].
Definition j2060 := JArr [j3; j2059].
Definition j2061 := jobj [("source_type_decl", j2); ("source_module_path", j2040); ("bin_io_derived", (JBool true)); ("ref_rule", j2060)].
Definition j2062 := JArr [j10; j2061].
Definition j2063 := JArr [j9; j2062].
Definition j2064 := jobj [("field_name", j2039); ("field_rule", j2063)].
Definition j2065 := jstr "send".
Definition j2066 := jobj [("field_name", j2065); ("field_rule", j2063)].
Definition j2067 := jstr "receive".
Definition j2068 := jobj [("field_name", j2067); ("field_rule", j2063)].
Definition j2069 := jstr "set_delegate".
Definition j2070 := jobj [("field_name", j2069); ("field_rule", j2063)].
Definition j2071 := jstr "set_permissions".
Definition j2072 := jobj [("field_name", j2071); ("field_rule", j2063)].
Definition j2073 := jstr "set_verification_key".
Definition j2074 := jobj [("field_name", j2073); ("field_rule", j2063)].
Definition j2075 := JArr [j2038; j2064; j2066; j2068; j2070; j2072; j2074].
Definition j2076 := JArr [j3; j2075].
Definition j2077 := jobj [("source_type_decl", j2035); ("source_module_path", j2036); ("bin_io_derived", (JBool true)); ("ref_rule", j2076)].
Definition j2078 := JArr [j10; j2077].
Definition j2079 := JArr [j9; j2078].
Definition j2080 := jobj [("field_name", j8); ("field_rule", j2079)].
Definition j2081 := JArr [j7; j2080].
Definition j2082 := JArr [j3; j2081].
Definition j2083 := jobj [("source_type_decl", j2033); ("source_module_path", j2034); ("bin_io_derived", (JBool true)); ("ref_rule", j2082)].
Definition j2084 := JArr [j10; j2083].
Definition j2085 := JArr [j9; j2084].
Definition j2086 := jobj [("field_name", j8); ("field_rule", j2085)].
Definition j2087 := JArr [j7; j2086].
Definition j2088 := JArr [j3; j2087].
Definition j2089 := jobj [("source_type_decl", j2); ("source_module_path", j2032); ("bin_io_derived", (JBool true)); ("ref_rule", j2088)].
Definition j2090 := JArr [j10; j2089].
Definition j2091 := JArr [j9; j2090].
Definition j2092 := JArr [j2091].
Definition j2093 := jobj [("ctor_name", j1872); ("index", (JNum (0))); ("ctor_args", j2092)].
Definition j2094 := JArr [j2093; j1875].
Definition j2095 := JArr [j93; j2094].
Definition j2096 := jobj [("source_type_decl", j1870); ("source_module_path", j1871); ("bin_io_derived", (JBool true)); ("ref_rule", j2095)].
Definition j2097 := JArr [j10; j2096].
Definition j2098 := JArr [j9; j2097].
Definition j2099 := jobj [("field_name", j8); ("field_rule", j2098)].
Definition j2100 := JArr [j7; j2099].
Definition j2101 := JArr [j3; j2100].
Definition j2102 := jobj [("source_type_decl", j652); ("source_module_path", j1869); ("bin_io_derived", (JBool true)); ("ref_rule", j2101)].
Definition j2103 := JArr [j10; j2102].
Definition j2104 := JArr [j9; j2103].
Definition j2105 := jobj [("field_name", j2031); ("field_rule", j2104)].
Definition j2106 := JArr [j1904; j1919; j2030; j2105].
Definition j2107 := JArr [j3; j2106].
Definition j2108 := jobj [("source_type_decl", j1864); ("source_module_path", j1865); ("bin_io_derived", (JBool true)); ("ref_rule", j2107)].
Definition j2109 := JArr [j10; j2108].
Definition j2110 := JArr [j9; j2109].
Definition j2111 := jobj [("field_name", j8); ("field_rule", j2110)].
Definition j2112 := JArr [j7; j2111].
Definition j2113 := JArr [j3; j2112].
Definition j2114 := jobj [("source_type_decl", j1862); ("source_module_path", j1863); ("bin_io_derived", (JBool true)); ("ref_rule", j2113)].
Definition j2115 := JArr [j10; j2114].
Definition j2116 := JArr [j9; j2115].
Definition j2117 := jobj [("field_name", j8); ("field_rule", j2116)].
Definition j2118 := JArr [j7; j2117].
Definition j2119 := JArr [j3; j2118].
Definition j2120 := jobj [("source_type_decl", j2); ("source_module_path", j1861); ("bin_io_derived", (JBool true)); ("ref_rule", j2119)].
Definition j2121 := JArr [j10; j2120].
Definition j2122 := JArr [j9; j2121].
Definition j2123 := jobj [("field_name", j1860); ("field_rule", j2122)].
Definition j2124 := jobj [("field_name", j1365); ("field_rule", j388)].
Definition j2125 := JArr [j2124; j1386].
Definition j2126 := JArr [j3; j2125].
Definition j2127 := jobj [("source_type_decl", j1363); ("source_module_path", j1364); ("bin_io_derived", (JBool true)); ("ref_rule", j2126)].
Definition j2128 := JArr [j10; j2127].
Definition j2129 := JArr [j9; j2128].
Definition j2130 := jobj [("field_name", j8); ("field_rule", j2129)].
Definition j2131 := JArr [j7; j2130].
Definition j2132 := JArr [j3; j2131].
Definition j2133 := jobj [("source_type_decl", j1361); ("source_module_path", j1362); ("bin_io_derived", (JBool true)); ("ref_rule", j2132)].
Definition j2134 := JArr [j10; j2133].
Definition j2135 := JArr [j9; j2134].
Definition j2136 := jobj [("field_name", j553); ("field_rule", j2135)].
Definition j2137 := JArr [j1812; j2123; j2136].
Definition j2138 := JArr [j3; j2137].
Definition j2139 := jobj [("source_type_decl", j1858); ("source_module_path", j1859); ("bin_io_derived", (JBool true)); ("ref_rule", j2138)].
Definition j2140 := JArr [j10; j2139].
Definition j2141 := JArr [j9; j2140].
Definition j2142 := jobj [("field_name", j8); ("field_rule", j2141)].
Definition j2143 := JArr [j7; j2142].
Definition j2144 := JArr [j3; j2143].
Definition j2145 := jobj [("source_type_decl", j1856); ("source_module_path", j1857); ("bin_io_derived", (JBool true)); ("ref_rule", j2144)].
Definition j2146 := JArr [j10; j2145].
Definition j2147 := JArr [j9; j2146].
Definition j2148 := jobj [("field_name", j8); ("field_rule", j2147)].
Definition j2149 := JArr [j7; j2148].
Definition j2150 := JArr [j3; j2149].
Definition j2151 := jobj [("source_type_decl", j2); ("source_module_path", j1855); ("bin_io_derived", (JBool true)); ("ref_rule", j2150)].
Definition j2152 := JArr [j10; j2151].
Definition j2153 := JArr [j9; j2152].
Definition j2154 := jobj [("field_name", j177); ("field_rule", j2153)].
Definition j2155 := jstr "predicate".
Definition j2156 := jstr "Snapp_predicate".
Definition j2157 := jstr "type ('account, 'protocol_state, 'other, 'pk) t = { version: int ; t: ('account, 'protocol_state, 'other, 'pk) typ }".
Definition j2158 := jstr "Snapp_predicate.Poly".
Definition j2159 := jstr "type ('account, 'protocol_state, 'other, 'pk) t = { self_predicate: 'account ; other: 'other ; fee_payer: 'pk ; protocol_state_predicate: 'protocol_state }".
Definition j2160 := jstr "Snapp_predicate.Poly.Stable.V1".
Definition j2161 := jstr "self_predicate".
Definition j2162 := jstr "Snapp_predicate.Account".
Definition j2163 := jstr "type ('balance, 'nonce, 'receipt_chain_hash, 'pk, 'field) t = { version: int ; t: ('balance, 'nonce, 'receipt_chain_hash, 'pk, 'field) typ }".
Definition j2164 := jstr "Snapp_predicate.Account.Poly".
Definition j2165 := jstr "type ('balance, 'nonce, 'receipt_chain_hash, 'pk, 'field) t = { balance: 'balance ; nonce: 'nonce ; receipt_chain_hash: 'receipt_chain_hash ; public_key: 'pk ; delegate: 'pk ; state: 'field Snapp_state.V.Stable.V1.t }".
Definition j2166 := jstr "Snapp_predicate.Account.Poly.Stable.V1".
Definition j2167 := jstr "balance".
Definition j2168 := jstr "Snapp_predicate.Numeric".
Definition j2169 := jstr "Snapp_basic.Or_ignore".
Definition j2170 := jstr "type 'a t = | Check of 'a  | Ignore ".
Definition j2171 := jstr "Snapp_basic.Or_ignore.Stable.V1".
Definition j2172 := jstr "Check".
Definition j2173 := jstr "Snapp_predicate.Closed_interval".
Definition j2174 := jstr "type 'a t = { lower: 'a ; upper: 'a }".
Definition j2175 := jstr "Snapp_predicate.Closed_interval.Stable.V1".
Definition j2176 := jstr "lower".
Definition j2177 := jstr "Currency.Balance".
Definition j2178 := jobj [("field_name", j8); ("field_rule", j388)].
Definition j2179 := JArr [j7; j2178].
Definition j2180 := JArr [j3; j2179].
Definition j2181 := jobj [("source_type_decl", j2); ("source_module_path", j2177); ("bin_io_derived", (JBool true)); ("ref_rule", j2180)].
Definition j2182 := JArr [j10; j2181].
Definition j2183 := JArr [j9; j2182].
Definition j2184 := jobj [("field_name", j2176); ("field_rule", j2183)].
Definition j2185 := jstr "upper".
Definition j2186 := jobj [("field_name", j2185); ("field_rule", j2183)].
Definition j2187 := JArr [j2184; j2186].
Definition j2188 := JArr [j3; j2187].
Definition j2189 := jobj [("source_type_decl", j2174); ("source_module_path", j2175); ("bin_io_derived", (JBool true)); ("ref_rule", j2188)].
Definition j2190 := JArr [j10; j2189].
Definition j2191 := JArr [j9; j2190].
Definition j2192 := jobj [("field_name", j8); ("field_rule", j2191)].
Definition j2193 := JArr [j7; j2192].
Definition j2194 := JArr [j3; j2193].
Definition j2195 := jobj [("source_type_decl", j652); ("source_module_path", j2173); ("bin_io_derived", (JBool true)); ("ref_rule", j2194)].
Definition j2196 := JArr [j10; j2195].
Definition j2197 := JArr [j9; j2196].
Definition j2198 := JArr [j2197].
Definition j2199 := jobj [("ctor_name", j2172); ("index", (JNum (0))); ("ctor_args", j2198)].
Definition j2200 := jstr "Ignore".
Definition j2201 := jobj [("ctor_name", j2200); ("index", (JNum (1))); ("ctor_args", j27)].
Definition j2202 := JArr [j2199; j2201].
Definition j2203 := JArr [j93; j2202].
Definition j2204 := jobj [("source_type_decl", j2170); ("source_module_path", j2171); ("bin_io_derived", (JBool true)); ("ref_rule", j2203)].
Definition j2205 := JArr [j10; j2204].
Definition j2206 := JArr [j9; j2205].
Definition j2207 := jobj [("field_name", j8); ("field_rule", j2206)].
Definition j2208 := JArr [j7; j2207].
Definition j2209 := JArr [j3; j2208].
Definition j2210 := jobj [("source_type_decl", j652); ("source_module_path", j2169); ("bin_io_derived", (JBool true)); ("ref_rule", j2209)].
Definition j2211 := JArr [j10; j2210].
Definition j2212 := JArr [j9; j2211].
Definition j2213 := jobj [("field_name", j8); ("field_rule", j2212)].
Definition j2214 := JArr [j7; j2213].
Definition j2215 := JArr [j3; j2214].
Definition j2216 := jobj [("source_type_decl", j652); ("source_module_path", j2168); ("bin_io_derived", (JBool true)); ("ref_rule", j2215)].
Definition j2217 := JArr [j10; j2216].
Definition j2218 := JArr [j9; j2217].
Definition j2219 := jobj [("field_name", j2167); ("field_rule", j2218)].
Definition j2220 := jobj [("field_name", j2176); ("field_rule", j362)].
Definition j2221 := jobj [("field_name", j2185); ("field_rule", j362)].
Definition j2222 := JArr [j2220; j2221].
Definition j2223 := JArr [j3; j2222].
Definition j2224 := jobj [("source_type_decl", j2174); ("source_module_path", j2175); ("bin_io_derived", (JBool true)); ("ref_rule", j2223)].
Definition j2225 := JArr [j10; j2224].
Definition j2226 := JArr [j9; j2225].
Definition j2227 := jobj [("field_name", j8); ("field_rule", j2226)].
Definition j2228 := JArr [j7; j2227].
Definition j2229 := JArr [j3; j2228].
Definition j2230 := jobj [("source_type_decl", j652); ("source_module_path", j2173); ("bin_io_derived", (JBool true)); ("ref_rule", j2229)].
Definition j2231 := JArr [j10; j2230].
Definition j2232 := JArr [j9; j2231].
Definition j2233 := JArr [j2232].
Definition j2234 := jobj [("ctor_name", j2172); ("index", (JNum (0))); ("ctor_args", j2233)].
Definition j2235 := JArr [j2234; j2201].
Definition j2236 := JArr [j93; j2235].
Definition j2237 := jobj [("source_type_decl", j2170); ("source_module_path", j2171); ("bin_io_derived", (JBool true)); ("ref_rule", j2236)].
Definition j2238 := JArr [j10; j2237].
Definition j2239 := JArr [j9; j2238].
Definition j2240 := jobj [("field_name", j8); ("field_rule", j2239)].
Definition j2241 := JArr [j7; j2240].
Definition j2242 := JArr [j3; j2241].
Definition j2243 := jobj [("source_type_decl", j652); ("source_module_path", j2169); ("bin_io_derived", (JBool true)); ("ref_rule", j2242)].
Definition j2244 := JArr [j10; j2243].
Definition j2245 := JArr [j9; j2244].
Definition j2246 := jobj [("field_name", j8); ("field_rule", j2245)].
Definition j2247 := JArr [j7; j2246].
Definition j2248 := JArr [j3; j2247].
Definition j2249 := jobj [("source_type_decl", j652); ("source_module_path", j2168); ("bin_io_derived", (JBool true)); ("ref_rule", j2248)].
Definition j2250 := JArr [j10; j2249].
Definition j2251 := JArr [j9; j2250].
Definition j2252 := jobj [("field_name", j1545); ("field_rule", j2251)].
Definition j2253 := jstr "receipt_chain_hash".
Definition j2254 := jstr "Receipt.Chain_hash".
Definition j2255 := jobj [("source_type_decl", j2); ("source_module_path", j2254); ("bin_io_derived", (JBool true)); ("ref_rule", j172)].
Definition j2256 := JArr [j10; j2255].
Definition j2257 := JArr [j9; j2256].
Definition j2258 := JArr [j2257].
Definition j2259 := jobj [("ctor_name", j2172); ("index", (JNum (0))); ("ctor_args", j2258)].
Definition j2260 := JArr [j2259; j2201].
Definition j2261 := JArr [j93; j2260].
Definition j2262 := jobj [("source_type_decl", j2170); ("source_module_path", j2171); ("bin_io_derived", (JBool true)); ("ref_rule", j2261)].
Definition j2263 := JArr [j10; j2262].
Definition j2264 := JArr [j9; j2263].
Definition j2265 := jobj [("field_name", j8); ("field_rule", j2264)].
Definition j2266 := JArr [j7; j2265].
Definition j2267 := JArr [j3; j2266].
Definition j2268 := jobj [("source_type_decl", j652); ("source_module_path", j2169); ("bin_io_derived", (JBool true)); ("ref_rule", j2267)].
Definition j2269 := JArr [j10; j2268].
Definition j2270 := JArr [j9; j2269].
Definition j2271 := jobj [("field_name", j2253); ("field_rule", j2270)].
Definition j2272 := jstr "public_key".
Definition j2273 := jobj [("ctor_name", j2172); ("index", (JNum (0))); ("ctor_args", j1906)].
Definition j2274 := JArr [j2273; j2201].
Definition j2275 := JArr [j93; j2274].
Definition j2276 := jobj [("source_type_decl", j2170); ("source_module_path", j2171); ("bin_io_derived", (JBool true)); ("ref_rule", j2275)].
Definition j2277 := JArr [j10; j2276].
Definition j2278 := JArr [j9; j2277].
Definition j2279 := jobj [("field_name", j8); ("field_rule", j2278)].
Definition j2280 := JArr [j7; j2279].
Definition j2281 := JArr [j3; j2280].
Definition j2282 := jobj [("source_type_decl", j652); ("source_module_path", j2169); ("bin_io_derived", (JBool true)); ("ref_rule", j2281)].
Definition j2283 := JArr [j10; j2282].
Definition j2284 := JArr [j9; j2283].
Definition j2285 := jobj [("field_name", j2272); ("field_rule", j2284)].
Definition j2286 := jobj [("field_name", j1905); ("field_rule", j2284)].
Definition j2287 := jobj [("ctor_name", j2172); ("index", (JNum (0))); ("ctor_args", j715)].
Definition j2288 := JArr [j2287; j2201].
Definition j2289 := JArr [j93; j2288].
Definition j2290 := jobj [("source_type_decl", j2170); ("source_module_path", j2171); ("bin_io_derived", (JBool true)); ("ref_rule", j2289)].
Definition j2291 := JArr [j10; j2290].
Definition j2292 := JArr [j9; j2291].
Definition j2293 := jobj [("field_name", j8); ("field_rule", j2292)].
Definition j2294 := JArr [j7; j2293].
Definition j2295 := JArr [j3; j2294].
Definition j2296 := jobj [("source_type_decl", j652); ("source_module_path", j2169); ("bin_io_derived", (JBool true)); ("ref_rule", j2295)].
Definition j2297 := JArr [j10; j2296].
Definition j2298 := JArr [j9; j2297].
Definition j2299 := JArr [j2298].
Definition j2300 := JArr [j26; j2299].
Definition j2301 := jobj [("source_type_decl", j736); ("source_module_path", j1868); ("bin_io_derived", (JBool false)); ("ref_rule", j2300)].
Definition j2302 := JArr [j10; j2301].
Definition j2303 := JArr [j9; j2302].
Definition j2304 := jobj [("field_name", j8); ("field_rule", j2303)].
Definition j2305 := JArr [j7; j2304].
Definition j2306 := JArr [j3; j2305].
Definition j2307 := jobj [("source_type_decl", j652); ("source_module_path", j1867); ("bin_io_derived", (JBool false)); ("ref_rule", j2306)].
Definition j2308 := JArr [j10; j2307].
Definition j2309 := JArr [j9; j2308].
Definition j2310 := jobj [("field_name", j8); ("field_rule", j2309)].
Definition j2311 := JArr [j7; j2310].
Definition j2312 := JArr [j3; j2311].
Definition j2313 := jobj [("source_type_decl", j652); ("source_module_path", j1866); ("bin_io_derived", (JBool true)); ("ref_rule", j2312)].
Definition j2314 := JArr [j10; j2313].
Definition j2315 := JArr [j9; j2314].
Definition j2316 := jobj [("field_name", j1283); ("field_rule", j2315)].
Definition j2317 := JArr [j2219; j2252; j2271; j2285; j2286; j2316].
Definition j2318 := JArr [j3; j2317].
Definition j2319 := jobj [("source_type_decl", j2165); ("source_module_path", j2166); ("bin_io_derived", (JBool true)); ("ref_rule", j2318)].
Definition j2320 := JArr [j10; j2319].
Definition j2321 := JArr [j9; j2320].
Definition j2322 := jobj [("field_name", j8); ("field_rule", j2321)].
Definition j2323 := JArr [j7; j2322].
Definition j2324 := JArr [j3; j2323].
Definition j2325 := jobj [("source_type_decl", j2163); ("source_module_path", j2164); ("bin_io_derived", (JBool true)); ("ref_rule", j2324)].
Definition j2326 := JArr [j10; j2325].
Definition j2327 := JArr [j9; j2326].
Definition j2328 := jobj [("field_name", j8); ("field_rule", j2327)].
Definition j2329 := JArr [j7; j2328].
Definition j2330 := JArr [j3; j2329].
Definition j2331 := jobj [("source_type_decl", j2); ("source_module_path", j2162); ("bin_io_derived", (JBool true)); ("ref_rule", j2330)].
Definition j2332 := JArr [j10; j2331].
Definition j2333 := JArr [j9; j2332].
Definition j2334 := jobj [("field_name", j2161); ("field_rule", j2333)].
Definition j2335 := jstr "other".
Definition j2336 := jstr "Snapp_predicate.Other".
Definition j2337 := jstr "type ('account, 'account_transition, 'vk) t = { version: int ; t: ('account, 'account_transition, 'vk) typ }".
Definition j2338 := jstr "Snapp_predicate.Other.Poly".
Definition j2339 := jstr "type ('account, 'account_transition, 'vk) t = { predicate: 'account ; account_transition: 'account_transition ; account_vk: 'vk }".
Definition j2340 := jstr "Snapp_predicate.Other.Poly.Stable.V1".
Definition j2341 := jobj [("field_name", j2155); ("field_rule", j2333)].
Definition j2342 := jstr "account_transition".
Definition j2343 := jstr "Snapp_basic.Transition".
Definition j2344 := jstr "type 'a t = { prev: 'a ; next: 'a }".
Definition j2345 := jstr "Snapp_basic.Transition.Stable.V1".
Definition j2346 := jstr "prev".
Definition j2347 := jstr "Snapp_basic.Account_state".
Definition j2348 := jstr "type t = | Empty  | Non_empty  | Any ".
Definition j2349 := jstr "Snapp_basic.Account_state.Stable.V1".
Definition j2350 := jstr "Empty".
Definition j2351 := jobj [("ctor_name", j2350); ("index", (JNum (0))); ("ctor_args", j27)].
Definition j2352 := jstr "Non_empty".
Definition j2353 := jobj [("ctor_name", j2352); ("index", (JNum (1))); ("ctor_args", j27)].
Definition j2354 := jstr "Any".
Definition j2355 := jobj [("ctor_name", j2354); ("index", (JNum (2))); ("ctor_args", j27)].
Definition j2356 := JArr [j2351; j2353; j2355].
Definition j2357 := JArr [j93; j2356].
Definition j2358 := jobj [("source_type_decl", j2348); ("source_module_path", j2349); ("bin_io_derived", (JBool true)); ("ref_rule", j2357)].
Definition j2359 := JArr [j10; j2358].
Definition j2360 := JArr [j9; j2359].
Definition j2361 := jobj [("field_name", j8); ("field_rule", j2360)].
Definition j2362 := JArr [j7; j2361].
Definition j2363 := JArr [j3; j2362].
Definition j2364 := jobj [("source_type_decl", j2); ("source_module_path", j2347); ("bin_io_derived", (JBool true)); ("ref_rule", j2363)].
Definition j2365 := JArr [j10; j2364].
Definition j2366 := JArr [j9; j2365].
Definition j2367 := jobj [("field_name", j2346); ("field_rule", j2366)].
Definition j2368 := jstr "next".
Definition j2369 := jobj [("field_name", j2368); ("field_rule", j2366)].
Definition j2370 := JArr [j2367; j2369].
Definition j2371 := JArr [j3; j2370].
Definition j2372 := jobj [("source_type_decl", j2344); ("source_module_path", j2345); ("bin_io_derived", (JBool true)); ("ref_rule", j2371)].
Definition j2373 := JArr [j10; j2372].
Definition j2374 := JArr [j9; j2373].
Definition j2375 := jobj [("field_name", j8); ("field_rule", j2374)].
Definition j2376 := JArr [j7; j2375].
Definition j2377 := JArr [j3; j2376].
Definition j2378 := jobj [("source_type_decl", j652); ("source_module_path", j2343); ("bin_io_derived", (JBool true)); ("ref_rule", j2377)].
Definition j2379 := JArr [j10; j2378].
Definition j2380 := JArr [j9; j2379].
Definition j2381 := jobj [("field_name", j2342); ("field_rule", j2380)].
Definition j2382 := jstr "account_vk".
Definition j2383 := jobj [("field_name", j2382); ("field_rule", j2298)].
Definition j2384 := JArr [j2341; j2381; j2383].
Definition j2385 := JArr [j3; j2384].
Definition j2386 := jobj [("source_type_decl", j2339); ("source_module_path", j2340); ("bin_io_derived", (JBool true)); ("ref_rule", j2385)].
Definition j2387 := JArr [j10; j2386].
Definition j2388 := JArr [j9; j2387].
Definition j2389 := jobj [("field_name", j8); ("field_rule", j2388)].
Definition j2390 := JArr [j7; j2389].
Definition j2391 := JArr [j3; j2390].
Definition j2392 := jobj [("source_type_decl", j2337); ("source_module_path", j2338); ("bin_io_derived", (JBool true)); ("ref_rule", j2391)].
Definition j2393 := JArr [j10; j2392].
Definition j2394 := JArr [j9; j2393].
Definition j2395 := jobj [("field_name", j8); ("field_rule", j2394)].
Definition j2396 := JArr [j7; j2395].
Definition j2397 := JArr [j3; j2396].
Definition j2398 := jobj [("source_type_decl", j2); ("source_module_path", j2336); ("bin_io_derived", (JBool true)); ("ref_rule", j2397)].
Definition j2399 := JArr [j10; j2398].
Definition j2400 := JArr [j9; j2399].
Definition j2401 := jobj [("field_name", j2335); ("field_rule", j2400)].
Definition j2402 := jstr "fee_payer".
Definition j2403 := jobj [("field_name", j2402); ("field_rule", j2284)].
Definition j2404 := jstr "protocol_state_predicate".
Definition j2405 := jstr "Snapp_predicate.Protocol_state".
Definition j2406 := jstr "type ('snarked_ledger_hash, 'token_id, 'time, 'length, 'vrf_output, 'global_slot, 'amount, 'epoch_data) t = { version: int ; t: ('snarked_ledger_hash, 'token_id, 'time, 'length, 'vrf_output, 'global_slot, 'amount, 'epoch_data) typ }".
Definition j2407 := jstr "Snapp_predicate.Protocol_state.Poly".
Definition j2408 := jstr "type ('snarked_ledger_hash, 'token_id, 'time, 'length, 'vrf_output, 'global_slot, 'amount, 'epoch_data) t = { snarked_ledger_hash: 'snarked_ledger_hash ; snarked_next_available_token: 'token_id ; timestamp: 'time ; blockchain_length: 'length ; min_window_density: 'length ; last_vrf_output: 'vrf_output ; total_currency: 'amount ; curr_global_slot: 'global_slot ; global_slot_since_genesis: 'global_slot ; staking_epoch_data: 'epoch_data ; next_epoch_data: 'epoch_data }".
Definition j2409 := jstr "Snapp_predicate.Protocol_state.Poly.Stable.V1".
Definition j2410 := JArr [j205].
Definition j2411 := jobj [("ctor_name", j2172); ("index", (JNum (0))); ("ctor_args", j2410)].
Definition j2412 := JArr [j2411; j2201].
Definition j2413 := JArr [j93; j2412].
Definition j2414 := jobj [("source_type_decl", j2170); ("source_module_path", j2171); ("bin_io_derived", (JBool true)); ("ref_rule", j2413)].
Definition j2415 := JArr [j10; j2414].
Definition j2416 := JArr [j9; j2415].
Definition j2417 := jobj [("field_name", j8); ("field_rule", j2416)].
Definition j2418 := JArr [j7; j2417].
Definition j2419 := JArr [j3; j2418].
Definition j2420 := jobj [("source_type_decl", j652); ("source_module_path", j2169); ("bin_io_derived", (JBool true)); ("ref_rule", j2419)].
Definition j2421 := JArr [j10; j2420].
Definition j2422 := JArr [j9; j2421].
Definition j2423 := jobj [("field_name", j279); ("field_rule", j2422)].
Definition j2424 := jobj [("field_name", j2176); ("field_rule", j310)].
Definition j2425 := jobj [("field_name", j2185); ("field_rule", j310)].
Definition j2426 := JArr [j2424; j2425].
Definition j2427 := JArr [j3; j2426].
Definition j2428 := jobj [("source_type_decl", j2174); ("source_module_path", j2175); ("bin_io_derived", (JBool true)); ("ref_rule", j2427)].
Definition j2429 := JArr [j10; j2428].
Definition j2430 := JArr [j9; j2429].
Definition j2431 := jobj [("field_name", j8); ("field_rule", j2430)].
Definition j2432 := JArr [j7; j2431].
Definition j2433 := JArr [j3; j2432].
Definition j2434 := jobj [("source_type_decl", j652); ("source_module_path", j2173); ("bin_io_derived", (JBool true)); ("ref_rule", j2433)].
Definition j2435 := JArr [j10; j2434].
Definition j2436 := JArr [j9; j2435].
Definition j2437 := JArr [j2436].
Definition j2438 := jobj [("ctor_name", j2172); ("index", (JNum (0))); ("ctor_args", j2437)].
Definition j2439 := JArr [j2438; j2201].
Definition j2440 := JArr [j93; j2439].
Definition j2441 := jobj [("source_type_decl", j2170); ("source_module_path", j2171); ("bin_io_derived", (JBool true)); ("ref_rule", j2440)].
Definition j2442 := JArr [j10; j2441].
Definition j2443 := JArr [j9; j2442].
Definition j2444 := jobj [("field_name", j8); ("field_rule", j2443)].
Definition j2445 := JArr [j7; j2444].
Definition j2446 := JArr [j3; j2445].
Definition j2447 := jobj [("source_type_decl", j652); ("source_module_path", j2169); ("bin_io_derived", (JBool true)); ("ref_rule", j2446)].
Definition j2448 := JArr [j10; j2447].
Definition j2449 := JArr [j9; j2448].
Definition j2450 := jobj [("field_name", j8); ("field_rule", j2449)].
Definition j2451 := JArr [j7; j2450].
Definition j2452 := JArr [j3; j2451].
Definition j2453 := jobj [("source_type_decl", j652); ("source_module_path", j2168); ("bin_io_derived", (JBool true)); ("ref_rule", j2452)].
Definition j2454 := JArr [j10; j2453].
Definition j2455 := JArr [j9; j2454].
Definition j2456 := jobj [("field_name", j283); ("field_rule", j2455)].
Definition j2457 := jobj [("field_name", j2176); ("field_rule", j316)].
Definition j2458 := jobj [("field_name", j2185); ("field_rule", j316)].
Definition j2459 := JArr [j2457; j2458].
Definition j2460 := JArr [j3; j2459].
Definition j2461 := jobj [("source_type_decl", j2174); ("source_module_path", j2175); ("bin_io_derived", (JBool true)); ("ref_rule", j2460)].
Definition j2462 := JArr [j10; j2461].
Definition j2463 := JArr [j9; j2462].
Definition j2464 := jobj [("field_name", j8); ("field_rule", j2463)].
Definition j2465 := JArr [j7; j2464].
Definition j2466 := JArr [j3; j2465].
Definition j2467 := jobj [("source_type_decl", j652); ("source_module_path", j2173); ("bin_io_derived", (JBool true)); ("ref_rule", j2466)].
Definition j2468 := JArr [j10; j2467].
Definition j2469 := JArr [j9; j2468].
Definition j2470 := JArr [j2469].
Definition j2471 := jobj [("ctor_name", j2172); ("index", (JNum (0))); ("ctor_args", j2470)].
Definition j2472 := JArr [j2471; j2201].
Definition j2473 := JArr [j93; j2472].
Definition j2474 := jobj [("source_type_decl", j2170); ("source_module_path", j2171); ("bin_io_derived", (JBool true)); ("ref_rule", j2473)].
Definition j2475 := JArr [j10; j2474].
Definition j2476 := JArr [j9; j2475].
Definition j2477 := jobj [("field_name", j8); ("field_rule", j2476)].
Definition j2478 := JArr [j7; j2477].
Definition j2479 := JArr [j3; j2478].
Definition j2480 := jobj [("source_type_decl", j652); ("source_module_path", j2169); ("bin_io_derived", (JBool true)); ("ref_rule", j2479)].
Definition j2481 := JArr [j10; j2480].
Definition j2482 := JArr [j9; j2481].
Definition j2483 := jobj [("field_name", j8); ("field_rule", j2482)].
Definition j2484 := JArr [j7; j2483].
Definition j2485 := JArr [j3; j2484].
Definition j2486 := jobj [("source_type_decl", j652); ("source_module_path", j2168); ("bin_io_derived", (JBool true)); ("ref_rule", j2485)].
Definition j2487 := JArr [j10; j2486].
Definition j2488 := JArr [j9; j2487].
Definition j2489 := jobj [("field_name", j312); ("field_rule", j2488)].
Definition j2490 := jobj [("field_name", j342); ("field_rule", j2251)].
Definition j2491 := jobj [("field_name", j366); ("field_rule", j2251)].
Definition j2492 := jobj [("field_name", j371); ("field_rule", j898)].
Definition j2493 := jobj [("field_name", j2176); ("field_rule", j388)].
Definition j2494 := jobj [("field_name", j2185); ("field_rule", j388)].
Definition j2495 := JArr [j2493; j2494].
Definition j2496 := JArr [j3; j2495].
Definition j2497 := jobj [("source_type_decl", j2174); ("source_module_path", j2175); ("bin_io_derived", (JBool true)); ("ref_rule", j2496)].
Definition j2498 := JArr [j10; j2497].
Definition j2499 := JArr [j9; j2498].
Definition j2500 := jobj [("field_name", j8); ("field_rule", j2499)].
Definition j2501 := JArr [j7; j2500].
Definition j2502 := JArr [j3; j2501].
Definition j2503 := jobj [("source_type_decl", j652); ("source_module_path", j2173); ("bin_io_derived", (JBool true)); ("ref_rule", j2502)].
Definition j2504 := JArr [j10; j2503].
Definition j2505 := JArr [j9; j2504].
Definition j2506 := JArr [j2505].
Definition j2507 := jobj [("ctor_name", j2172); ("index", (JNum (0))); ("ctor_args", j2506)].
Definition j2508 := JArr [j2507; j2201].
Definition j2509 := JArr [j93; j2508].
Definition j2510 := jobj [("source_type_decl", j2170); ("source_module_path", j2171); ("bin_io_derived", (JBool true)); ("ref_rule", j2509)].
Definition j2511 := JArr [j10; j2510].
Definition j2512 := JArr [j9; j2511].
Definition j2513 := jobj [("field_name", j8); ("field_rule", j2512)].
Definition j2514 := JArr [j7; j2513].
Definition j2515 := JArr [j3; j2514].
Definition j2516 := jobj [("source_type_decl", j652); ("source_module_path", j2169); ("bin_io_derived", (JBool true)); ("ref_rule", j2515)].
Definition j2517 := JArr [j10; j2516].
Definition j2518 := JArr [j9; j2517].
Definition j2519 := jobj [("field_name", j8); ("field_rule", j2518)].
Definition j2520 := JArr [j7; j2519].
Definition j2521 := JArr [j3; j2520].
Definition j2522 := jobj [("source_type_decl", j652); ("source_module_path", j2168); ("bin_io_derived", (JBool true)); ("ref_rule", j2521)].
Definition j2523 := JArr [j10; j2522].
Definition j2524 := JArr [j9; j2523].
Definition j2525 := jobj [("field_name", j384); ("field_rule", j2524)].
Definition j2526 := jobj [("field_name", j390); ("field_rule", j2251)].
Definition j2527 := jobj [("field_name", j418); ("field_rule", j2251)].
Definition j2528 := jstr "Snapp_predicate.Protocol_state.Epoch_data".
Definition j2529 := jobj [("field_name", j432); ("field_rule", j2422)].
Definition j2530 := JArr [j2529; j2525].
Definition j2531 := JArr [j3; j2530].
Definition j2532 := jobj [("source_type_decl", j430); ("source_module_path", j431); ("bin_io_derived", (JBool true)); ("ref_rule", j2531)].
Definition j2533 := JArr [j10; j2532].
Definition j2534 := JArr [j9; j2533].
Definition j2535 := jobj [("field_name", j8); ("field_rule", j2534)].
Definition j2536 := JArr [j7; j2535].
Definition j2537 := JArr [j3; j2536].
Definition j2538 := jobj [("source_type_decl", j428); ("source_module_path", j429); ("bin_io_derived", (JBool true)); ("ref_rule", j2537)].
Definition j2539 := JArr [j10; j2538].
Definition j2540 := JArr [j9; j2539].
Definition j2541 := jobj [("field_name", j426); ("field_rule", j2540)].
Definition j2542 := JArr [j456].
Definition j2543 := jobj [("ctor_name", j2172); ("index", (JNum (0))); ("ctor_args", j2542)].
Definition j2544 := JArr [j2543; j2201].
Definition j2545 := JArr [j93; j2544].
Definition j2546 := jobj [("source_type_decl", j2170); ("source_module_path", j2171); ("bin_io_derived", (JBool true)); ("ref_rule", j2545)].
Definition j2547 := JArr [j10; j2546].
Definition j2548 := JArr [j9; j2547].
Definition j2549 := jobj [("field_name", j8); ("field_rule", j2548)].
Definition j2550 := JArr [j7; j2549].
Definition j2551 := JArr [j3; j2550].
Definition j2552 := jobj [("source_type_decl", j652); ("source_module_path", j2169); ("bin_io_derived", (JBool true)); ("ref_rule", j2551)].
Definition j2553 := JArr [j10; j2552].
Definition j2554 := JArr [j9; j2553].
Definition j2555 := jobj [("field_name", j452); ("field_rule", j2554)].
Definition j2556 := JArr [j175].
Definition j2557 := jobj [("ctor_name", j2172); ("index", (JNum (0))); ("ctor_args", j2556)].
Definition j2558 := JArr [j2557; j2201].
Definition j2559 := JArr [j93; j2558].
Definition j2560 := jobj [("source_type_decl", j2170); ("source_module_path", j2171); ("bin_io_derived", (JBool true)); ("ref_rule", j2559)].
Definition j2561 := JArr [j10; j2560].
Definition j2562 := JArr [j9; j2561].
Definition j2563 := jobj [("field_name", j8); ("field_rule", j2562)].
Definition j2564 := JArr [j7; j2563].
Definition j2565 := JArr [j3; j2564].
Definition j2566 := jobj [("source_type_decl", j652); ("source_module_path", j2169); ("bin_io_derived", (JBool true)); ("ref_rule", j2565)].
Definition j2567 := JArr [j10; j2566].
Definition j2568 := JArr [j9; j2567].
Definition j2569 := jobj [("field_name", j458); ("field_rule", j2568)].
Definition j2570 := jobj [("field_name", j460); ("field_rule", j2568)].
Definition j2571 := jobj [("field_name", j462); ("field_rule", j2251)].
Definition j2572 := JArr [j2541; j2555; j2569; j2570; j2571].
Definition j2573 := JArr [j3; j2572].
Definition j2574 := jobj [("source_type_decl", j424); ("source_module_path", j425); ("bin_io_derived", (JBool true)); ("ref_rule", j2573)].
Definition j2575 := JArr [j10; j2574].
Definition j2576 := JArr [j9; j2575].
Definition j2577 := jobj [("field_name", j8); ("field_rule", j2576)].
Definition j2578 := JArr [j7; j2577].
Definition j2579 := JArr [j3; j2578].
Definition j2580 := jobj [("source_type_decl", j422); ("source_module_path", j423); ("bin_io_derived", (JBool true)); ("ref_rule", j2579)].
Definition j2581 := JArr [j10; j2580].
Definition j2582 := JArr [j9; j2581].
Definition j2583 := jobj [("field_name", j8); ("field_rule", j2582)].
Definition j2584 := JArr [j7; j2583].
Definition j2585 := JArr [j3; j2584].
Definition j2586 := jobj [("source_type_decl", j2); ("source_module_path", j2528); ("bin_io_derived", (JBool true)); ("ref_rule", j2585)].
Definition j2587 := JArr [j10; j2586].
Definition j2588 := JArr [j9; j2587].
Definition j2589 := jobj [("field_name", j420); ("field_rule", j2588)].
Definition j2590 := jobj [("field_name", j482); ("field_rule", j2588)].
Definition j2591 := JArr [j2423; j2456; j2489; j2490; j2491; j2492; j2525; j2526; j2527; j2589; j2590].
Definition j2592 := JArr [j3; j2591].
Definition j2593 := jobj [("source_type_decl", j2408); ("source_module_path", j2409); ("bin_io_derived", (JBool true)); ("ref_rule", j2592)].
Definition j2594 := JArr [j10; j2593].
Definition j2595 := JArr [j9; j2594].
Definition j2596 := jobj [("field_name", j8); ("field_rule", j2595)].
Definition j2597 := JArr [j7; j2596].
Definition j2598 := JArr [j3; j2597].
Definition j2599 := jobj [("source_type_decl", j2406); ("source_module_path", j2407); ("bin_io_derived", (JBool true)); ("ref_rule", j2598)].
Definition j2600 := JArr [j10; j2599].
Definition j2601 := JArr [j9; j2600].
Definition j2602 := jobj [("field_name", j8); ("field_rule", j2601)].
Definition j2603 := JArr [j7; j2602].
Definition j2604 := JArr [j3; j2603].
Definition j2605 := jobj [("source_type_decl", j2); ("source_module_path", j2405); ("bin_io_derived", (JBool true)); ("ref_rule", j2604)].
Definition j2606 := JArr [j10; j2605].
Definition j2607 := JArr [j9; j2606].
Definition j2608 := jobj [("field_name", j2404); ("field_rule", j2607)].
Definition j2609 := JArr [j2334; j2401; j2403; j2608].
Definition j2610 := JArr [j3; j2609].
Definition j2611 := jobj [("source_type_decl", j2159); ("source_module_path", j2160); ("bin_io_derived", (JBool true)); ("ref_rule", j2610)].
Definition j2612 := JArr [j10; j2611].
Definition j2613 := JArr [j9; j2612].
Definition j2614 := jobj [("field_name", j8); ("field_rule", j2613)].
Definition j2615 := JArr [j7; j2614].
Definition j2616 := JArr [j3; j2615].
Definition j2617 := jobj [("source_type_decl", j2157); ("source_module_path", j2158); ("bin_io_derived", (JBool true)); ("ref_rule", j2616)].
Definition j2618 := JArr [j10; j2617].
Definition j2619 := JArr [j9; j2618].
Definition j2620 := jobj [("field_name", j8); ("field_rule", j2619)].
Definition j2621 := JArr [j7; j2620].
Definition j2622 := JArr [j3; j2621].
Definition j2623 := jobj [("source_type_decl", j2); ("source_module_path", j2156); ("bin_io_derived", (JBool true)); ("ref_rule", j2622)].
Definition j2624 := JArr [j10; j2623].
Definition j2625 := JArr [j9; j2624].
Definition j2626 := jobj [("field_name", j2155); ("field_rule", j2625)].
Definition j2627 := JArr [j2154; j2626].
Definition j2628 := JArr [j3; j2627].
Definition j2629 := jobj [("source_type_decl", j1853); ("source_module_path", j1854); ("bin_io_derived", (JBool true)); ("ref_rule", j2628)].
Definition j2630 := JArr [j10; j2629].
Definition j2631 := JArr [j9; j2630].
Definition j2632 := jobj [("field_name", j8); ("field_rule", j2631)].
Definition j2633 := JArr [j7; j2632].
Definition j2634 := JArr [j3; j2633].
Definition j2635 := jobj [("source_type_decl", j1851); ("source_module_path", j1852); ("bin_io_derived", (JBool true)); ("ref_rule", j2634)].
Definition j2636 := JArr [j10; j2635].
Definition j2637 := JArr [j9; j2636].
Definition j2638 := jobj [("field_name", j8); ("field_rule", j2637)].
Definition j2639 := JArr [j7; j2638].
Definition j2640 := JArr [j3; j2639].
Definition j2641 := jobj [("source_type_decl", j2); ("source_module_path", j1850); ("bin_io_derived", (JBool true)); ("ref_rule", j2640)].
Definition j2642 := JArr [j10; j2641].
Definition j2643 := JArr [j9; j2642].
Definition j2644 := jobj [("field_name", j124); ("field_rule", j2643)].
Definition j2645 := jstr "authorization".
Definition j2646 := jstr "Control".
Definition j2647 := jstr "type t = | Proof of Pickles.Side_loaded.Proof.Stable.V1.t  | Signature of Signature.Stable.V1.t  | Both of { signature: Signature.Stable.V1.t ; proof: Pickles.Side_loaded.Proof.Stable.V1.t }  | None_given ".
Definition j2648 := jstr "Control.Stable.V1".
Definition j2649 := jstr "Proof.Branching_max".
Definition j2650 := jstr "Proof.Branching_max.Repr".
Definition j2651 := jstr "Side_loaded_verification_key.Width.Max_vector".
Definition j2652 := jobj [("field_name", j8); ("field_rule", j865)].
Definition j2653 := JArr [j7; j2652].
Definition j2654 := JArr [j3; j2653].
Definition j2655 := jobj [("source_type_decl", j652); ("source_module_path", j2651); ("bin_io_derived", (JBool true)); ("ref_rule", j2654)].
Definition j2656 := JArr [j10; j2655].
Definition j2657 := JArr [j9; j2656].
Definition j2658 := jobj [("field_name", j829); ("field_rule", j2657)].
Definition j2659 := JArr [j828; j2658].
Definition j2660 := JArr [j3; j2659].
Definition j2661 := jobj [("source_type_decl", j825); ("source_module_path", j826); ("bin_io_derived", (JBool true)); ("ref_rule", j2660)].
Definition j2662 := JArr [j10; j2661].
Definition j2663 := JArr [j9; j2662].
Definition j2664 := jobj [("field_name", j8); ("field_rule", j2663)].
Definition j2665 := JArr [j7; j2664].
Definition j2666 := JArr [j3; j2665].
Definition j2667 := jobj [("source_type_decl", j823); ("source_module_path", j824); ("bin_io_derived", (JBool true)); ("ref_rule", j2666)].
Definition j2668 := JArr [j10; j2667].
Definition j2669 := JArr [j9; j2668].
Definition j2670 := jobj [("field_name", j822); ("field_rule", j2669)].
Definition j2671 := JArr [j800; j821; j2670].
Definition j2672 := JArr [j3; j2671].
Definition j2673 := jobj [("source_type_decl", j635); ("source_module_path", j636); ("bin_io_derived", (JBool true)); ("ref_rule", j2672)].
Definition j2674 := JArr [j10; j2673].
Definition j2675 := JArr [j9; j2674].
Definition j2676 := jobj [("field_name", j8); ("field_rule", j2675)].
Definition j2677 := JArr [j7; j2676].
Definition j2678 := JArr [j3; j2677].
Definition j2679 := jobj [("source_type_decl", j633); ("source_module_path", j634); ("bin_io_derived", (JBool true)); ("ref_rule", j2678)].
Definition j2680 := JArr [j10; j2679].
Definition j2681 := JArr [j9; j2680].
Definition j2682 := jobj [("field_name", j632); ("field_rule", j2681)].
Definition j2683 := jstr "Side_loaded_verification_key.Width.Max_at_most".
Definition j2684 := jobj [("field_name", j8); ("field_rule", j910)].
Definition j2685 := JArr [j7; j2684].
Definition j2686 := JArr [j3; j2685].
Definition j2687 := jobj [("source_type_decl", j652); ("source_module_path", j2683); ("bin_io_derived", (JBool true)); ("ref_rule", j2686)].
Definition j2688 := JArr [j10; j2687].
Definition j2689 := JArr [j9; j2688].
Definition j2690 := jobj [("field_name", j827); ("field_rule", j2689)].
Definition j2691 := jobj [("field_name", j8); ("field_rule", j921)].
Definition j2692 := JArr [j7; j2691].
Definition j2693 := JArr [j3; j2692].
Definition j2694 := jobj [("source_type_decl", j652); ("source_module_path", j2683); ("bin_io_derived", (JBool true)); ("ref_rule", j2693)].
Definition j2695 := JArr [j10; j2694].
Definition j2696 := JArr [j9; j2695].
Definition j2697 := jobj [("field_name", j829); ("field_rule", j2696)].
Definition j2698 := JArr [j899; j2690; j2697].
Definition j2699 := JArr [j3; j2698].
Definition j2700 := jobj [("source_type_decl", j894); ("source_module_path", j895); ("bin_io_derived", (JBool true)); ("ref_rule", j2699)].
Definition j2701 := JArr [j10; j2700].
Definition j2702 := JArr [j9; j2701].
Definition j2703 := jobj [("field_name", j8); ("field_rule", j2702)].
Definition j2704 := JArr [j7; j2703].
Definition j2705 := JArr [j3; j2704].
Definition j2706 := jobj [("source_type_decl", j892); ("source_module_path", j893); ("bin_io_derived", (JBool true)); ("ref_rule", j2705)].
Definition j2707 := JArr [j10; j2706].
Definition j2708 := JArr [j9; j2707].
Definition j2709 := jobj [("field_name", j891); ("field_rule", j2708)].
Definition j2710 := JArr [j2682; j2709].
Definition j2711 := JArr [j3; j2710].
Definition j2712 := jobj [("source_type_decl", j630); ("source_module_path", j631); ("bin_io_derived", (JBool true)); ("ref_rule", j2711)].
Definition j2713 := JArr [j10; j2712].
Definition j2714 := JArr [j9; j2713].
Definition j2715 := jobj [("field_name", j8); ("field_rule", j2714)].
Definition j2716 := JArr [j7; j2715].
Definition j2717 := JArr [j3; j2716].
Definition j2718 := jobj [("source_type_decl", j628); ("source_module_path", j629); ("bin_io_derived", (JBool true)); ("ref_rule", j2717)].
Definition j2719 := JArr [j10; j2718].
Definition j2720 := JArr [j9; j2719].
Definition j2721 := jobj [("field_name", j8); ("field_rule", j2720)].
Definition j2722 := JArr [j7; j2721].
Definition j2723 := JArr [j3; j2722].
Definition j2724 := jobj [("source_type_decl", j626); ("source_module_path", j627); ("bin_io_derived", (JBool true)); ("ref_rule", j2723)].
Definition j2725 := JArr [j10; j2724].
Definition j2726 := JArr [j9; j2725].
Definition j2727 := jobj [("field_name", j625); ("field_rule", j2726)].
Definition j2728 := JArr [j2727; j1010; j1021; j1191].
Definition j2729 := JArr [j3; j2728].
Definition j2730 := jobj [("source_type_decl", j623); ("source_module_path", j624); ("bin_io_derived", (JBool true)); ("ref_rule", j2729)].
Definition j2731 := JArr [j10; j2730].
Definition j2732 := JArr [j9; j2731].
Definition j2733 := jobj [("field_name", j8); ("field_rule", j2732)].
Definition j2734 := JArr [j7; j2733].
Definition j2735 := JArr [j3; j2734].
Definition j2736 := jobj [("source_type_decl", j621); ("source_module_path", j622); ("bin_io_derived", (JBool true)); ("ref_rule", j2735)].
Definition j2737 := JArr [j10; j2736].
Definition j2738 := JArr [j9; j2737].
Definition j2739 := jobj [("field_name", j8); ("field_rule", j2738)].
Definition j2740 := JArr [j7; j2739].
Definition j2741 := JArr [j3; j2740].
Definition j2742 := jobj [("source_type_decl", j2); ("source_module_path", j2650); ("bin_io_derived", (JBool false)); ("ref_rule", j2741)].
Definition j2743 := JArr [j10; j2742].
Definition j2744 := JArr [j9; j2743].
Definition j2745 := jobj [("field_name", j8); ("field_rule", j2744)].
Definition j2746 := JArr [j7; j2745].
Definition j2747 := JArr [j3; j2746].
Definition j2748 := jobj [("source_type_decl", j2); ("source_module_path", j2649); ("bin_io_derived", (JBool false)); ("ref_rule", j2747)].
Definition j2749 := JArr [j10; j2748].
Definition j2750 := JArr [j9; j2749].
Definition j2751 := JArr [j2750].
Definition j2752 := jobj [("ctor_name", j618); ("index", (JNum (0))); ("ctor_args", j2751)].
Definition j2753 := JArr [j1771].
Definition j2754 := jobj [("ctor_name", j1745); ("index", (JNum (1))); ("ctor_args", j2753)].
Definition j2755 := JArr [j1771; j2750].
Definition j2756 := jobj [("ctor_name", j2049); ("index", (JNum (2))); ("ctor_args", j2755)].
Definition j2757 := jstr "None_given".
Definition j2758 := jobj [("ctor_name", j2757); ("index", (JNum (3))); ("ctor_args", j27)].
Definition j2759 := JArr [j2752; j2754; j2756; j2758].
Definition j2760 := JArr [j93; j2759].
Definition j2761 := jobj [("source_type_decl", j2647); ("source_module_path", j2648); ("bin_io_derived", (JBool true)); ("ref_rule", j2760)].
Definition j2762 := JArr [j10; j2761].
Definition j2763 := JArr [j9; j2762].
Definition j2764 := jobj [("field_name", j8); ("field_rule", j2763)].
Definition j2765 := JArr [j7; j2764].
Definition j2766 := JArr [j3; j2765].
Definition j2767 := jobj [("source_type_decl", j2); ("source_module_path", j2646); ("bin_io_derived", (JBool true)); ("ref_rule", j2766)].
Definition j2768 := JArr [j10; j2767].
Definition j2769 := JArr [j9; j2768].
Definition j2770 := jobj [("field_name", j2645); ("field_rule", j2769)].
Definition j2771 := JArr [j2644; j2770].
Definition j2772 := JArr [j3; j2771].
Definition j2773 := jobj [("source_type_decl", j1848); ("source_module_path", j1849); ("bin_io_derived", (JBool true)); ("ref_rule", j2772)].
Definition j2774 := JArr [j10; j2773].
Definition j2775 := JArr [j9; j2774].
Definition j2776 := jobj [("field_name", j8); ("field_rule", j2775)].
Definition j2777 := JArr [j7; j2776].
Definition j2778 := JArr [j3; j2777].
Definition j2779 := jobj [("source_type_decl", j1846); ("source_module_path", j1847); ("bin_io_derived", (JBool true)); ("ref_rule", j2778)].
Definition j2780 := JArr [j10; j2779].
Definition j2781 := JArr [j9; j2780].
Definition j2782 := jobj [("field_name", j8); ("field_rule", j2781)].
Definition j2783 := JArr [j7; j2782].
Definition j2784 := JArr [j3; j2783].
Definition j2785 := jobj [("source_type_decl", j2); ("source_module_path", j1845); ("bin_io_derived", (JBool true)); ("ref_rule", j2784)].
Definition j2786 := JArr [j10; j2785].
Definition j2787 := JArr [j9; j2786].
Definition j2788 := jobj [("field_name", j1844); ("field_rule", j2787)].
Definition j2789 := jstr "two".
Definition j2790 := jstr "Snapp_command.Party.Authorized.Empty".
Definition j2791 := jstr "Snapp_command.Party.Predicated.Empty".
Definition j2792 := jobj [("field_name", j2155); ("field_rule", j898)].
Definition j2793 := JArr [j2154; j2792].
Definition j2794 := JArr [j3; j2793].
Definition j2795 := jobj [("source_type_decl", j1853); ("source_module_path", j1854); ("bin_io_derived", (JBool true)); ("ref_rule", j2794)].
Definition j2796 := JArr [j10; j2795].
Definition j2797 := JArr [j9; j2796].
Definition j2798 := jobj [("field_name", j8); ("field_rule", j2797)].
Definition j2799 := JArr [j7; j2798].
Definition j2800 := JArr [j3; j2799].
Definition j2801 := jobj [("source_type_decl", j1851); ("source_module_path", j1852); ("bin_io_derived", (JBool true)); ("ref_rule", j2800)].
Definition j2802 := JArr [j10; j2801].
Definition j2803 := JArr [j9; j2802].
Definition j2804 := jobj [("field_name", j8); ("field_rule", j2803)].
Definition j2805 := JArr [j7; j2804].
Definition j2806 := JArr [j3; j2805].
Definition j2807 := jobj [("source_type_decl", j2); ("source_module_path", j2791); ("bin_io_derived", (JBool true)); ("ref_rule", j2806)].
Definition j2808 := JArr [j10; j2807].
Definition j2809 := JArr [j9; j2808].
Definition j2810 := jobj [("field_name", j124); ("field_rule", j2809)].
Definition j2811 := jobj [("field_name", j2645); ("field_rule", j898)].
Definition j2812 := JArr [j2810; j2811].
Definition j2813 := JArr [j3; j2812].
Definition j2814 := jobj [("source_type_decl", j1848); ("source_module_path", j1849); ("bin_io_derived", (JBool true)); ("ref_rule", j2813)].
Definition j2815 := JArr [j10; j2814].
Definition j2816 := JArr [j9; j2815].
Definition j2817 := jobj [("field_name", j8); ("field_rule", j2816)].
Definition j2818 := JArr [j7; j2817].
Definition j2819 := JArr [j3; j2818].
Definition j2820 := jobj [("source_type_decl", j1846); ("source_module_path", j1847); ("bin_io_derived", (JBool true)); ("ref_rule", j2819)].
Definition j2821 := JArr [j10; j2820].
Definition j2822 := JArr [j9; j2821].
Definition j2823 := jobj [("field_name", j8); ("field_rule", j2822)].
Definition j2824 := JArr [j7; j2823].
Definition j2825 := JArr [j3; j2824].
Definition j2826 := jobj [("source_type_decl", j2); ("source_module_path", j2790); ("bin_io_derived", (JBool true)); ("ref_rule", j2825)].
Definition j2827 := JArr [j10; j2826].
Definition j2828 := JArr [j9; j2827].
Definition j2829 := JArr [j1802; j2828].
Definition j2830 := jobj [("field_name", j2789); ("field_rule", j2829)].
Definition j2831 := JArr [j1601; j1843; j2788; j2830].
Definition j2832 := JArr [j3; j2831].
Definition j2833 := jobj [("source_type_decl", j1799); ("source_module_path", j1800); ("bin_io_derived", (JBool true)); ("ref_rule", j2832)].
Definition j2834 := JArr [j10; j2833].
Definition j2835 := JArr [j9; j2834].
Definition j2836 := jobj [("field_name", j8); ("field_rule", j2835)].
Definition j2837 := JArr [j7; j2836].
Definition j2838 := JArr [j3; j2837].
Definition j2839 := jobj [("source_type_decl", j1797); ("source_module_path", j1798); ("bin_io_derived", (JBool true)); ("ref_rule", j2838)].
Definition j2840 := JArr [j10; j2839].
Definition j2841 := JArr [j9; j2840].
Definition j2842 := JArr [j2841].
Definition j2843 := jobj [("ctor_name", j1796); ("index", (JNum (0))); ("ctor_args", j2842)].
Definition j2844 := jstr "Proved_signed".
Definition j2845 := jstr "Snapp_command.Party.Authorized.Signed".
Definition j2846 := jstr "Snapp_command.Party.Predicated.Signed".
Definition j2847 := jobj [("field_name", j2155); ("field_rule", j362)].
Definition j2848 := JArr [j2154; j2847].
Definition j2849 := JArr [j3; j2848].
Definition j2850 := jobj [("source_type_decl", j1853); ("source_module_path", j1854); ("bin_io_derived", (JBool true)); ("ref_rule", j2849)].
Definition j2851 := JArr [j10; j2850].
Definition j2852 := JArr [j9; j2851].
Definition j2853 := jobj [("field_name", j8); ("field_rule", j2852)].
Definition j2854 := JArr [j7; j2853].
Definition j2855 := JArr [j3; j2854].
Definition j2856 := jobj [("source_type_decl", j1851); ("source_module_path", j1852); ("bin_io_derived", (JBool true)); ("ref_rule", j2855)].
Definition j2857 := JArr [j10; j2856].
Definition j2858 := JArr [j9; j2857].
Definition j2859 := jobj [("field_name", j8); ("field_rule", j2858)].
Definition j2860 := JArr [j7; j2859].
Definition j2861 := JArr [j3; j2860].
Definition j2862 := jobj [("source_type_decl", j2); ("source_module_path", j2846); ("bin_io_derived", (JBool true)); ("ref_rule", j2861)].
Definition j2863 := JArr [j10; j2862].
Definition j2864 := JArr [j9; j2863].
Definition j2865 := jobj [("field_name", j124); ("field_rule", j2864)].
Definition j2866 := jobj [("field_name", j2645); ("field_rule", j1771)].
Definition j2867 := JArr [j2865; j2866].
Definition j2868 := JArr [j3; j2867].
Definition j2869 := jobj [("source_type_decl", j1848); ("source_module_path", j1849); ("bin_io_derived", (JBool true)); ("ref_rule", j2868)].
Definition j2870 := JArr [j10; j2869].
Definition j2871 := JArr [j9; j2870].
Definition j2872 := jobj [("field_name", j8); ("field_rule", j2871)].
Definition j2873 := JArr [j7; j2872].
Definition j2874 := JArr [j3; j2873].
Definition j2875 := jobj [("source_type_decl", j1846); ("source_module_path", j1847); ("bin_io_derived", (JBool true)); ("ref_rule", j2874)].
Definition j2876 := JArr [j10; j2875].
Definition j2877 := JArr [j9; j2876].
Definition j2878 := jobj [("field_name", j8); ("field_rule", j2877)].
Definition j2879 := JArr [j7; j2878].
Definition j2880 := JArr [j3; j2879].
Definition j2881 := jobj [("source_type_decl", j2); ("source_module_path", j2845); ("bin_io_derived", (JBool true)); ("ref_rule", j2880)].
Definition j2882 := JArr [j10; j2881].
Definition j2883 := JArr [j9; j2882].
Definition j2884 := jobj [("field_name", j2789); ("field_rule", j2883)].
Definition j2885 := JArr [j1601; j1843; j2788; j2884].
Definition j2886 := JArr [j3; j2885].
Definition j2887 := jobj [("source_type_decl", j1799); ("source_module_path", j1800); ("bin_io_derived", (JBool true)); ("ref_rule", j2886)].
Definition j2888 := JArr [j10; j2887].
Definition j2889 := JArr [j9; j2888].
Definition j2890 := jobj [("field_name", j8); ("field_rule", j2889)].
Definition j2891 := JArr [j7; j2890].
Definition j2892 := JArr [j3; j2891].
Definition j2893 := jobj [("source_type_decl", j1797); ("source_module_path", j1798); ("bin_io_derived", (JBool true)); ("ref_rule", j2892)].
Definition j2894 := JArr [j10; j2893].
Definition j2895 := JArr [j9; j2894].
Definition j2896 := JArr [j2895].
Definition j2897 := jobj [("ctor_name", j2844); ("index", (JNum (1))); ("ctor_args", j2896)].
Definition j2898 := jstr "Proved_proved".
Definition j2899 := jobj [("field_name", j2789); ("field_rule", j2787)].
Definition j2900 := JArr [j1601; j1843; j2788; j2899].
Definition j2901 := JArr [j3; j2900].
Definition j2902 := jobj [("source_type_decl", j1799); ("source_module_path", j1800); ("bin_io_derived", (JBool true)); ("ref_rule", j2901)].
Definition j2903 := JArr [j10; j2902].
Definition j2904 := JArr [j9; j2903].
Definition j2905 := jobj [("field_name", j8); ("field_rule", j2904)].
Definition j2906 := JArr [j7; j2905].
Definition j2907 := JArr [j3; j2906].
Definition j2908 := jobj [("source_type_decl", j1797); ("source_module_path", j1798); ("bin_io_derived", (JBool true)); ("ref_rule", j2907)].
Definition j2909 := JArr [j10; j2908].
Definition j2910 := JArr [j9; j2909].
Definition j2911 := JArr [j2910].
Definition j2912 := jobj [("ctor_name", j2898); ("index", (JNum (2))); ("ctor_args", j2911)].
Definition j2913 := jstr "Signed_signed".
Definition j2914 := jobj [("field_name", j1844); ("field_rule", j2883)].
Definition j2915 := JArr [j1601; j1843; j2914; j2884].
Definition j2916 := JArr [j3; j2915].
Definition j2917 := jobj [("source_type_decl", j1799); ("source_module_path", j1800); ("bin_io_derived", (JBool true)); ("ref_rule", j2916)].
Definition j2918 := JArr [j10; j2917].
Definition j2919 := JArr [j9; j2918].
Definition j2920 := jobj [("field_name", j8); ("field_rule", j2919)].
Definition j2921 := JArr [j7; j2920].
Definition j2922 := JArr [j3; j2921].
Definition j2923 := jobj [("source_type_decl", j1797); ("source_module_path", j1798); ("bin_io_derived", (JBool true)); ("ref_rule", j2922)].
Definition j2924 := JArr [j10; j2923].
Definition j2925 := JArr [j9; j2924].
Definition j2926 := JArr [j2925].
Definition j2927 := jobj [("ctor_name", j2913); ("index", (JNum (3))); ("ctor_args", j2926)].
Definition j2928 := jstr "Signed_empty".
Definition j2929 := JArr [j1601; j1843; j2914; j2830].
Definition j2930 := JArr [j3; j2929].
Definition j2931 := jobj [("source_type_decl", j1799); ("source_module_path", j1800); ("bin_io_derived", (JBool true)); ("ref_rule", j2930)].
Definition j2932 := JArr [j10; j2931].
Definition j2933 := JArr [j9; j2932].
Definition j2934 := jobj [("field_name", j8); ("field_rule", j2933)].
Definition j2935 := JArr [j7; j2934].
Definition j2936 := JArr [j3; j2935].
Definition j2937 := jobj [("source_type_decl", j1797); ("source_module_path", j1798); ("bin_io_derived", (JBool true)); ("ref_rule", j2936)].
Definition j2938 := JArr [j10; j2937].
Definition j2939 := JArr [j9; j2938].
Definition j2940 := JArr [j2939].
Definition j2941 := jobj [("ctor_name", j2928); ("index", (JNum (4))); ("ctor_args", j2940)].
Definition j2942 := JArr [j2843; j2897; j2912; j2927; j2941].
Definition j2943 := JArr [j93; j2942].
Definition j2944 := jobj [("source_type_decl", j1794); ("source_module_path", j1795); ("bin_io_derived", (JBool true)); ("ref_rule", j2943)].
Definition j2945 := JArr [j10; j2944].
Definition j2946 := JArr [j9; j2945].
Definition j2947 := jobj [("field_name", j8); ("field_rule", j2946)].
Definition j2948 := JArr [j7; j2947].
Definition j2949 := JArr [j3; j2948].
Definition j2950 := jobj [("source_type_decl", j2); ("source_module_path", j1793); ("bin_io_derived", (JBool false)); ("ref_rule", j2949)].
Definition j2951 := JArr [j10; j2950].
Definition j2952 := JArr [j9; j2951].
Definition j2953 := jobj [("field_name", j8); ("field_rule", j2952)].
Definition j2954 := JArr [j7; j2953].
Definition j2955 := JArr [j3; j2954].
Definition j2956 := jobj [("source_type_decl", j2); ("source_module_path", j1792); ("bin_io_derived", (JBool false)); ("ref_rule", j2955)].
Definition j2957 := JArr [j10; j2956].
Definition j2958 := JArr [j9; j2957].
Definition j2959 := JArr [j2958].
Definition j2960 := jobj [("ctor_name", j1792); ("index", (JNum (1))); ("ctor_args", j2959)].
Definition j2961 := JArr [j1791; j2960].
Definition j2962 := JArr [j93; j2961].
Definition j2963 := jobj [("source_type_decl", j1521); ("source_module_path", j1522); ("bin_io_derived", (JBool true)); ("ref_rule", j2962)].
Definition j2964 := JArr [j10; j2963].
Definition j2965 := JArr [j9; j2964].
Definition j2966 := jobj [("field_name", j8); ("field_rule", j2965)].
Definition j2967 := JArr [j7; j2966].
Definition j2968 := JArr [j3; j2967].
Definition j2969 := jobj [("source_type_decl", j1519); ("source_module_path", j1520); ("bin_io_derived", (JBool true)); ("ref_rule", j2968)].
Definition j2970 := JArr [j10; j2969].
Definition j2971 := JArr [j9; j2970].
Definition j2972 := jobj [("field_name", j8); ("field_rule", j2971)].
Definition j2973 := JArr [j7; j2972].
Definition j2974 := JArr [j3; j2973].
Definition j2975 := jobj [("source_type_decl", j2); ("source_module_path", j1518); ("bin_io_derived", (JBool true)); ("ref_rule", j2974)].
Definition j2976 := JArr [j10; j2975].
Definition j2977 := JArr [j9; j2976].
Definition j2978 := jobj [("field_name", j124); ("field_rule", j2977)].
Definition j2979 := jstr "status".
Definition j2980 := jstr "Transaction_status".
Definition j2981 := jstr "type t = | Applied of Auxiliary_data.Stable.V1.t * Balance_data.Stable.V1.t  | Failed of Failure.Stable.V1.t * Balance_data.Stable.V1.t ".
Definition j2982 := jstr "Transaction_status.Stable.V1".
Definition j2983 := jstr "Applied".
Definition j2984 := jstr "Transaction_status.Auxiliary_data".
Definition j2985 := jstr "type t = { fee_payer_account_creation_fee_paid: Currency.Amount.Stable.V1.t option ; receiver_account_creation_fee_paid: Currency.Amount.Stable.V1.t option ; created_token: Token_id.Stable.V1.t option }".
Definition j2986 := jstr "Transaction_status.Auxiliary_data.Stable.V1".
Definition j2987 := jstr "fee_payer_account_creation_fee_paid".
Definition j2988 := JArr [j1802; j388].
Definition j2989 := jobj [("field_name", j2987); ("field_rule", j2988)].
Definition j2990 := jstr "receiver_account_creation_fee_paid".
Definition j2991 := jobj [("field_name", j2990); ("field_rule", j2988)].
Definition j2992 := jstr "created_token".
Definition j2993 := JArr [j1802; j310].
Definition j2994 := jobj [("field_name", j2992); ("field_rule", j2993)].
Definition j2995 := JArr [j2989; j2991; j2994].
Definition j2996 := JArr [j3; j2995].
Definition j2997 := jobj [("source_type_decl", j2985); ("source_module_path", j2986); ("bin_io_derived", (JBool true)); ("ref_rule", j2996)].
Definition j2998 := JArr [j10; j2997].
Definition j2999 := JArr [j9; j2998].
Definition j3000 := jobj [("field_name", j8); ("field_rule", j2999)].
Definition j3001 := JArr [j7; j3000].
Definition j3002 := JArr [j3; j3001].
Definition j3003 := jobj [("source_type_decl", j2); ("source_module_path", j2984); ("bin_io_derived", (JBool true)); ("ref_rule", j3002)].
Definition j3004 := JArr [j10; j3003].
Definition j3005 := JArr [j9; j3004].
Definition j3006 := jstr "Transaction_status.Balance_data".
Definition j3007 := jstr "type t = { fee_payer_balance: Currency.Balance.Stable.V1.t option ; source_balance: Currency.Balance.Stable.V1.t option ; receiver_balance: Currency.Balance.Stable.V1.t option }".
Definition j3008 := jstr "Transaction_status.Balance_data.Stable.V1".
Definition j3009 := jstr "fee_payer_balance".
Definition j3010 := JArr [j1802; j2183].
Definition j3011 := jobj [("field_name", j3009); ("field_rule", j3010)].
Definition j3012 := jstr "source_balance".
Definition j3013 := jobj [("field_name", j3012); ("field_rule", j3010)].
Definition j3014 := jstr "receiver_balance".
Definition j3015 := jobj [("field_name", j3014); ("field_rule", j3010)].
Definition j3016 := JArr [j3011; j3013; j3015].
Definition j3017 := JArr [j3; j3016].
Definition j3018 := jobj [("source_type_decl", j3007); ("source_module_path", j3008); ("bin_io_derived", (JBool true)); ("ref_rule", j3017)].
Definition j3019 := JArr [j10; j3018].
Definition j3020 := JArr [j9; j3019].
Definition j3021 := jobj [("field_name", j8); ("field_rule", j3020)].
Definition j3022 := JArr [j7; j3021].
Definition j3023 := JArr [j3; j3022].
Definition j3024 := jobj [("source_type_decl", j2); ("source_module_path", j3006); ("bin_io_derived", (JBool true)); ("ref_rule", j3023)].
Definition j3025 := JArr [j10; j3024].
Definition j3026 := JArr [j9; j3025].
Definition j3027 := JArr [j3005; j3026].
Definition j3028 := jobj [("ctor_name", j2983); ("index", (JNum (0))); ("ctor_args", j3027)].
Definition j3029 := jstr "Failed".
Definition j3030 := jstr "Transaction_status.Failure".
Definition j3031 := jstr "type t = | Predicate [@value 1] | Source_not_present  | Receiver_not_present  | Amount_insufficient_to_create_account  | Cannot_pay_creation_fee_in_token  | Source_insufficient_balance  | Source_minimum_balance_violation  | Receiver_already_exists  | Not_token_owner  | Mismatched_token_permissions  | Overflow  | Signed_command_on_snapp_account  | Snapp_account_not_present  | Update_not_permitted  | Incorrect_nonce ".
Definition j3032 := jstr "Transaction_status.Failure.Stable.V1".
Definition j3033 := jstr "Predicate".
Definition j3034 := jobj [("ctor_name", j3033); ("index", (JNum (0))); ("ctor_args", j27)].
Definition j3035 := jstr "Source_not_present".
Definition j3036 := jobj [("ctor_name", j3035); ("index", (JNum (1))); ("ctor_args", j27)].
Definition j3037 := jstr "Receiver_not_present".
Definition j3038 := jobj [("ctor_name", j3037); ("index", (JNum (2))); ("ctor_args", j27)].
Definition j3039 := jstr "Amount_insufficient_to_create_account".
Definition j3040 := jobj [("ctor_name", j3039); ("index", (JNum (3))); ("ctor_args", j27)].
Definition j3041 := jstr "Cannot_pay_creation_fee_in_token".
Definition j3042 := jobj [("ctor_name", j3041); ("index", (JNum (4))); ("ctor_args", j27)].
Definition j3043 := jstr "Source_insufficient_balance".
Definition j3044 := jobj [("ctor_name", j3043); ("index", (JNum (5))); ("ctor_args", j27)].
Definition j3045 := jstr "Source_minimum_balance_violation".
Definition j3046 := jobj [("ctor_name", j3045); ("index", (JNum (6))); ("ctor_args", j27)].
Definition j3047 := jstr "Receiver_already_exists".
Definition j3048 := jobj [("ctor_name", j3047); ("index", (JNum (7))); ("ctor_args", j27)].
Definition j3049 := jstr "Not_token_owner".
Definition j3050 := jobj [("ctor_name", j3049); ("index", (JNum (8))); ("ctor_args", j27)].
Definition j3051 := jstr "Mismatched_token_permissions".
Definition j3052 := jobj [("ctor_name", j3051); ("index", (JNum (9))); ("ctor_args", j27)].
Definition j3053 := jstr "Overflow".
Definition j3054 := jobj [("ctor_name", j3053); ("index", (JNum (10))); ("ctor_args", j27)].
Definition j3055 := jstr "Signed_command_on_snapp_account".
Definition j3056 := jobj [("ctor_name", j3055); ("index", (JNum (11))); ("ctor_args", j27)].
Definition j3057 := jstr "Snapp_account_not_present".
Definition j3058 := jobj [("ctor_name", j3057); ("index", (JNum (12))); ("ctor_args", j27)].
Definition j3059 := jstr "Update_not_permitted".
Definition j3060 := jobj [("ctor_name", j3059); ("index", (JNum (13))); ("ctor_args", j27)].
Definition j3061 := jstr "Incorrect_nonce".
Definition j3062 := jobj [("ctor_name", j3061); ("index", (JNum (14))); ("ctor_args", j27)].
Definition j3063 := JArr [j3034; j3036; j3038; j3040; j3042; j3044; j3046; j3048; j3050; j3052; j3054; j3056; j3058; j3060; j3062].
Definition j3064 := JArr [j93; j3063].
Definition j3065 := jobj [("source_type_decl", j3031); ("source_module_path", j3032); ("bin_io_derived", (JBool true)); ("ref_rule", j3064)].
Definition j3066 := JArr [j10; j3065].
Definition j3067 := JArr [j9; j3066].
Definition j3068 := jobj [("field_name", j8); ("field_rule", j3067)].
Definition j3069 := JArr [j7; j3068].
Definition j3070 := JArr [j3; j3069].
Definition j3071 := jobj [("source_type_decl", j2); ("source_module_path", j3030); ("bin_io_derived", (JBool true)); ("ref_rule", j3070)].
Definition j3072 := JArr [j10; j3071].
Definition j3073 := JArr [j9; j3072].
Definition j3074 := JArr [j3073; j3026].
Definition j3075 := jobj [("ctor_name", j3029); ("index", (JNum (1))); ("ctor_args", j3074)].
Definition j3076 := JArr [j3028; j3075].
Definition j3077 := JArr [j93; j3076].
Definition j3078 := jobj [("source_type_decl", j2981); ("source_module_path", j2982); ("bin_io_derived", (JBool true)); ("ref_rule", j3077)].
Definition j3079 := JArr [j10; j3078].
Definition j3080 := JArr [j9; j3079].
Definition j3081 := jobj [("field_name", j8); ("field_rule", j3080)].
Definition j3082 := JArr [j7; j3081].
Definition j3083 := JArr [j3; j3082].
Definition j3084 := jobj [("source_type_decl", j2); ("source_module_path", j2980); ("bin_io_derived", (JBool true)); ("ref_rule", j3083)].
Definition j3085 := JArr [j10; j3084].
Definition j3086 := JArr [j9; j3085].
Definition j3087 := jobj [("field_name", j2979); ("field_rule", j3086)].
Definition j3088 := JArr [j2978; j3087].
Definition j3089 := JArr [j3; j3088].
Definition j3090 := jobj [("source_type_decl", j1516); ("source_module_path", j1517); ("bin_io_derived", (JBool true)); ("ref_rule", j3089)].
Definition j3091 := JArr [j10; j3090].
Definition j3092 := JArr [j9; j3091].
Definition j3093 := jobj [("field_name", j8); ("field_rule", j3092)].
Definition j3094 := JArr [j7; j3093].
Definition j3095 := JArr [j3; j3094].
Definition j3096 := jobj [("source_type_decl", j652); ("source_module_path", j1515); ("bin_io_derived", (JBool true)); ("ref_rule", j3095)].
Definition j3097 := JArr [j10; j3096].
Definition j3098 := JArr [j9; j3097].
Definition j3099 := JArr [j20; j3098].
Definition j3100 := jobj [("field_name", j1514); ("field_rule", j3099)].
Definition j3101 := jstr "coinbase".
Definition j3102 := jstr "Staged_ledger_diff.At_most_two".
Definition j3103 := jstr "type 'a t = | Zero  | One of 'a option  | Two of ('a * 'a option) option ".
Definition j3104 := jstr "Staged_ledger_diff.At_most_two.Stable.V1".
Definition j3105 := jstr "Zero".
Definition j3106 := jobj [("ctor_name", j3105); ("index", (JNum (0))); ("ctor_args", j27)].
Definition j3107 := jstr "Staged_ledger_diff.Ft".
Definition j3108 := jstr "Coinbase_fee_transfer".
Definition j3109 := jstr "type t = { receiver_pk: Public_key.Compressed.Stable.V1.t ; fee: Currency.Fee.Stable.V1.t }".
Definition j3110 := jstr "Coinbase_fee_transfer.Stable.V1".
Definition j3111 := JArr [j1599; j1244].
Definition j3112 := JArr [j3; j3111].
Definition j3113 := jobj [("source_type_decl", j3109); ("source_module_path", j3110); ("bin_io_derived", (JBool true)); ("ref_rule", j3112)].
Definition j3114 := JArr [j10; j3113].
Definition j3115 := JArr [j9; j3114].
Definition j3116 := jobj [("field_name", j8); ("field_rule", j3115)].
Definition j3117 := JArr [j7; j3116].
Definition j3118 := JArr [j3; j3117].
Definition j3119 := jobj [("source_type_decl", j2); ("source_module_path", j3108); ("bin_io_derived", (JBool true)); ("ref_rule", j3118)].
Definition j3120 := JArr [j10; j3119].
Definition j3121 := JArr [j9; j3120].
Definition j3122 := jobj [("field_name", j8); ("field_rule", j3121)].
Definition j3123 := JArr [j7; j3122].
Definition j3124 := JArr [j3; j3123].
Definition j3125 := jobj [("source_type_decl", j2); ("source_module_path", j3107); ("bin_io_derived", (JBool true)); ("ref_rule", j3124)].
Definition j3126 := JArr [j10; j3125].
Definition j3127 := JArr [j9; j3126].
Definition j3128 := JArr [j1802; j3127].
Definition j3129 := JArr [j3128].
Definition j3130 := jobj [("ctor_name", j1251); ("index", (JNum (1))); ("ctor_args", j3129)].
Definition j3131 := JArr [j3127; j3128].
Definition j3132 := JArr [j23; j3131].
Definition j3133 := JArr [j1802; j3132].
Definition j3134 := JArr [j3133].
Definition j3135 := jobj [("ctor_name", j1481); ("index", (JNum (2))); ("ctor_args", j3134)].
Definition j3136 := JArr [j3106; j3130; j3135].
Definition j3137 := JArr [j93; j3136].
Definition j3138 := jobj [("source_type_decl", j3103); ("source_module_path", j3104); ("bin_io_derived", (JBool true)); ("ref_rule", j3137)].
Definition j3139 := JArr [j10; j3138].
Definition j3140 := JArr [j9; j3139].
Definition j3141 := jobj [("field_name", j8); ("field_rule", j3140)].
Definition j3142 := JArr [j7; j3141].
Definition j3143 := JArr [j3; j3142].
Definition j3144 := jobj [("source_type_decl", j652); ("source_module_path", j3102); ("bin_io_derived", (JBool true)); ("ref_rule", j3143)].
Definition j3145 := JArr [j10; j3144].
Definition j3146 := JArr [j9; j3145].
Definition j3147 := jobj [("field_name", j3101); ("field_rule", j3146)].
Definition j3148 := jstr "internal_command_balances".
Definition j3149 := jstr "Transaction_status.Internal_command_balance_data".
Definition j3150 := jstr "type t = | Coinbase of Coinbase_balance_data.Stable.V1.t  | Fee_transfer of Fee_transfer_balance_data.Stable.V1.t ".
Definition j3151 := jstr "Transaction_status.Internal_command_balance_data.Stable.V1".
Definition j3152 := jstr "Coinbase".
Definition j3153 := jstr "Transaction_status.Coinbase_balance_data".
Definition j3154 := jstr "type t = { coinbase_receiver_balance: Currency.Balance.Stable.V1.t ; fee_transfer_receiver_balance: Currency.Balance.Stable.V1.t option }".
Definition j3155 := jstr "Transaction_status.Coinbase_balance_data.Stable.V1".
Definition j3156 := jstr "coinbase_receiver_balance".
Definition j3157 := jobj [("field_name", j3156); ("field_rule", j2183)].
Definition j3158 := jstr "fee_transfer_receiver_balance".
Definition j3159 := jobj [("field_name", j3158); ("field_rule", j3010)].
Definition j3160 := JArr [j3157; j3159].
Definition j3161 := JArr [j3; j3160].
Definition j3162 := jobj [("source_type_decl", j3154); ("source_module_path", j3155); ("bin_io_derived", (JBool true)); ("ref_rule", j3161)].
Definition j3163 := JArr [j10; j3162].
Definition j3164 := JArr [j9; j3163].
Definition j3165 := jobj [("field_name", j8); ("field_rule", j3164)].
Definition j3166 := JArr [j7; j3165].
Definition j3167 := JArr [j3; j3166].
Definition j3168 := jobj [("source_type_decl", j2); ("source_module_path", j3153); ("bin_io_derived", (JBool true)); ("ref_rule", j3167)].
Definition j3169 := JArr [j10; j3168].
Definition j3170 := JArr [j9; j3169].
Definition j3171 := JArr [j3170].
Definition j3172 := jobj [("ctor_name", j3152); ("index", (JNum (0))); ("ctor_args", j3171)].
Definition j3173 := jstr "Fee_transfer".
Definition j3174 := jstr "Transaction_status.Fee_transfer_balance_data".
Definition j3175 := jstr "type t = { receiver1_balance: Currency.Balance.Stable.V1.t ; receiver2_balance: Currency.Balance.Stable.V1.t option }".
Definition j3176 := jstr "Transaction_status.Fee_transfer_balance_data.Stable.V1".
Definition j3177 := jstr "receiver1_balance".
Definition j3178 := jobj [("field_name", j3177); ("field_rule", j2183)].
Definition j3179 := jstr "receiver2_balance".
Definition j3180 := jobj [("field_name", j3179); ("field_rule", j3010)].
Definition j3181 := JArr [j3178; j3180].
Definition j3182 := JArr [j3; j3181].
Definition j3183 := jobj [("source_type_decl", j3175); ("source_module_path", j3176); ("bin_io_derived", (JBool true)); ("ref_rule", j3182)].
Definition j3184 := JArr [j10; j3183].
Definition j3185 := JArr [j9; j3184].
Definition j3186 := jobj [("field_name", j8); ("field_rule", j3185)].
Definition j3187 := JArr [j7; j3186].
Definition j3188 := JArr [j3; j3187].
Definition j3189 := jobj [("source_type_decl", j2); ("source_module_path", j3174); ("bin_io_derived", (JBool true)); ("ref_rule", j3188)].
Definition j3190 := JArr [j10; j3189].
Definition j3191 := JArr [j9; j3190].
Definition j3192 := JArr [j3191].
Definition j3193 := jobj [("ctor_name", j3173); ("index", (JNum (1))); ("ctor_args", j3192)].
Definition j3194 := JArr [j3172; j3193].
Definition j3195 := JArr [j93; j3194].
Definition j3196 := jobj [("source_type_decl", j3150); ("source_module_path", j3151); ("bin_io_derived", (JBool true)); ("ref_rule", j3195)].
Definition j3197 := JArr [j10; j3196].
Definition j3198 := JArr [j9; j3197].
Definition j3199 := jobj [("field_name", j8); ("field_rule", j3198)].
Definition j3200 := JArr [j7; j3199].
Definition j3201 := JArr [j3; j3200].
Definition j3202 := jobj [("source_type_decl", j2); ("source_module_path", j3149); ("bin_io_derived", (JBool true)); ("ref_rule", j3201)].
Definition j3203 := JArr [j10; j3202].
Definition j3204 := JArr [j9; j3203].
Definition j3205 := JArr [j20; j3204].
Definition j3206 := jobj [("field_name", j3148); ("field_rule", j3205)].
Definition j3207 := JArr [j1513; j3100; j3147; j3206].
Definition j3208 := JArr [j3; j3207].
Definition j3209 := jobj [("source_type_decl", j1233); ("source_module_path", j1234); ("bin_io_derived", (JBool true)); ("ref_rule", j3208)].
Definition j3210 := JArr [j10; j3209].
Definition j3211 := JArr [j9; j3210].
Definition j3212 := jobj [("field_name", j8); ("field_rule", j3211)].
Definition j3213 := JArr [j7; j3212].
Definition j3214 := JArr [j3; j3213].
Definition j3215 := jobj [("source_type_decl", j1231); ("source_module_path", j1232); ("bin_io_derived", (JBool true)); ("ref_rule", j3214)].
Definition j3216 := JArr [j10; j3215].
Definition j3217 := JArr [j9; j3216].
Definition j3218 := jobj [("field_name", j8); ("field_rule", j3217)].
Definition j3219 := JArr [j7; j3218].
Definition j3220 := JArr [j3; j3219].
Definition j3221 := jobj [("source_type_decl", j2); ("source_module_path", j1230); ("bin_io_derived", (JBool true)); ("ref_rule", j3220)].
Definition j3222 := JArr [j10; j3221].
Definition j3223 := JArr [j9; j3222].
Definition j3224 := jstr "Staged_ledger_diff.Pre_diff_with_at_most_one_coinbase".
Definition j3225 := jstr "Staged_ledger_diff.Pre_diff_one".
Definition j3226 := jstr "type ('a, 'b) t = { completed_works: 'a list ; commands: 'b list ; coinbase: Ft.Stable.V1.t At_most_one.Stable.V1.t ; internal_command_balances: Transaction_status.Internal_command_balance_data.Stable.V1.t list }".
Definition j3227 := jstr "Staged_ledger_diff.Pre_diff_one.Stable.V1".
Definition j3228 := jstr "Staged_ledger_diff.At_most_one".
Definition j3229 := jstr "type 'a t = | Zero  | One of 'a option ".
Definition j3230 := jstr "Staged_ledger_diff.At_most_one.Stable.V1".
Definition j3231 := JArr [j3106; j3130].
Definition j3232 := JArr [j93; j3231].
Definition j3233 := jobj [("source_type_decl", j3229); ("source_module_path", j3230); ("bin_io_derived", (JBool true)); ("ref_rule", j3232)].
Definition j3234 := JArr [j10; j3233].
Definition j3235 := JArr [j9; j3234].
Definition j3236 := jobj [("field_name", j8); ("field_rule", j3235)].
Definition j3237 := JArr [j7; j3236].
Definition j3238 := JArr [j3; j3237].
Definition j3239 := jobj [("source_type_decl", j652); ("source_module_path", j3228); ("bin_io_derived", (JBool true)); ("ref_rule", j3238)].
Definition j3240 := JArr [j10; j3239].
Definition j3241 := JArr [j9; j3240].
Definition j3242 := jobj [("field_name", j3101); ("field_rule", j3241)].
Definition j3243 := JArr [j1513; j3100; j3242; j3206].
Definition j3244 := JArr [j3; j3243].
Definition j3245 := jobj [("source_type_decl", j3226); ("source_module_path", j3227); ("bin_io_derived", (JBool true)); ("ref_rule", j3244)].
Definition j3246 := JArr [j10; j3245].
Definition j3247 := JArr [j9; j3246].
Definition j3248 := jobj [("field_name", j8); ("field_rule", j3247)].
Definition j3249 := JArr [j7; j3248].
Definition j3250 := JArr [j3; j3249].
Definition j3251 := jobj [("source_type_decl", j1231); ("source_module_path", j3225); ("bin_io_derived", (JBool true)); ("ref_rule", j3250)].
Definition j3252 := JArr [j10; j3251].
Definition j3253 := JArr [j9; j3252].
Definition j3254 := jobj [("field_name", j8); ("field_rule", j3253)].
Definition j3255 := JArr [j7; j3254].
Definition j3256 := JArr [j3; j3255].
Definition j3257 := jobj [("source_type_decl", j2); ("source_module_path", j3224); ("bin_io_derived", (JBool true)); ("ref_rule", j3256)].
Definition j3258 := JArr [j10; j3257].
Definition j3259 := JArr [j9; j3258].
Definition j3260 := JArr [j1802; j3259].
Definition j3261 := JArr [j3223; j3260].
Definition j3262 := JArr [j23; j3261].
Definition j3263 := jobj [("source_type_decl", j1228); ("source_module_path", j1229); ("bin_io_derived", (JBool true)); ("ref_rule", j3262)].
Definition j3264 := JArr [j10; j3263].
Definition j3265 := JArr [j9; j3264].
Definition j3266 := jobj [("field_name", j8); ("field_rule", j3265)].
Definition j3267 := JArr [j7; j3266].
Definition j3268 := JArr [j3; j3267].
Definition j3269 := jobj [("source_type_decl", j2); ("source_module_path", j1227); ("bin_io_derived", (JBool true)); ("ref_rule", j3268)].
Definition j3270 := JArr [j10; j3269].
Definition j3271 := JArr [j9; j3270].
Definition j3272 := jobj [("field_name", j1226); ("field_rule", j3271)].
Definition j3273 := JArr [j3272].
Definition j3274 := JArr [j3; j3273].
Definition j3275 := jobj [("source_type_decl", j1224); ("source_module_path", j1225); ("bin_io_derived", (JBool true)); ("ref_rule", j3274)].
Definition j3276 := JArr [j10; j3275].
Definition j3277 := JArr [j9; j3276].
Definition j3278 := jobj [("field_name", j8); ("field_rule", j3277)].
Definition j3279 := JArr [j7; j3278].
Definition j3280 := JArr [j3; j3279].
Definition j3281 := jobj [("source_type_decl", j2); ("source_module_path", j1223); ("bin_io_derived", (JBool true)); ("ref_rule", j3280)].
Definition j3282 := JArr [j10; j3281].
Definition j3283 := JArr [j9; j3282].
Definition j3284 := jobj [("field_name", j1222); ("field_rule", j3283)].
Definition j3285 := jstr "delta_transition_chain_proof".
Definition j3286 := jstr "State_body_hash".
Definition j3287 := jobj [("source_type_decl", j2); ("source_module_path", j3286); ("bin_io_derived", (JBool true)); ("ref_rule", j172)].
Definition j3288 := JArr [j10; j3287].
Definition j3289 := JArr [j9; j3288].
Definition j3290 := JArr [j20; j3289].
Definition j3291 := JArr [j175; j3290].
Definition j3292 := JArr [j23; j3291].
Definition j3293 := jobj [("field_name", j3285); ("field_rule", j3292)].
Definition j3294 := jstr "current_protocol_version".
Definition j3295 := jstr "Protocol_version".
Definition j3296 := jstr "type t = { major: int ; minor: int ; patch: int }".
Definition j3297 := jstr "Protocol_version.Stable.V1".
Definition j3298 := jstr "major".
Definition j3299 := jobj [("field_name", j3298); ("field_rule", j6)].
Definition j3300 := jstr "minor".
Definition j3301 := jobj [("field_name", j3300); ("field_rule", j6)].
Definition j3302 := jstr "patch".
Definition j3303 := jobj [("field_name", j3302); ("field_rule", j6)].
Definition j3304 := JArr [j3299; j3301; j3303].
Definition j3305 := JArr [j3; j3304].
Definition j3306 := jobj [("source_type_decl", j3296); ("source_module_path", j3297); ("bin_io_derived", (JBool true)); ("ref_rule", j3305)].
Definition j3307 := JArr [j10; j3306].
Definition j3308 := JArr [j9; j3307].
Definition j3309 := jobj [("field_name", j8); ("field_rule", j3308)].
Definition j3310 := JArr [j7; j3309].
Definition j3311 := JArr [j3; j3310].
Definition j3312 := jobj [("source_type_decl", j2); ("source_module_path", j3295); ("bin_io_derived", (JBool true)); ("ref_rule", j3311)].
Definition j3313 := JArr [j10; j3312].
Definition j3314 := JArr [j9; j3313].
Definition j3315 := jobj [("field_name", j3294); ("field_rule", j3314)].
Definition j3316 := jstr "proposed_protocol_version_opt".
Definition j3317 := JArr [j1802; j3314].
Definition j3318 := jobj [("field_name", j3316); ("field_rule", j3317)].
Definition j3319 := jstr "validation_callback".
Definition j3320 := jstr "Mina_transition.External_transition.Validate_callback.t".
Definition j3321 := jstr "Mina_transition.External_transition.Validate_callback".
Definition j3322 := jobj [("source_type_decl", j3320); ("source_module_path", j3321); ("bin_io_derived", (JBool false)); ("ref_rule", j898)].
Definition j3323 := JArr [j10; j3322].
Definition j3324 := JArr [j9; j3323].
Definition j3325 := jobj [("field_name", j3319); ("field_rule", j3324)].
Definition j3326 := JArr [j616; j1221; j3284; j3293; j3315; j3318; j3325].
Definition j3327 := JArr [j3; j3326].
Definition j3328 := jobj [("source_type_decl", j610); ("source_module_path", j611); ("bin_io_derived", (JBool true)); ("ref_rule", j3327)].
Definition j3329 := JArr [j10; j3328].
Definition j3330 := JArr [j9; j3329].
Definition j3331 := jobj [("field_name", j8); ("field_rule", j3330)].
Definition j3332 := JArr [j7; j3331].
Definition j3333 := JArr [j3; j3332].
Definition j3334 := jobj [("layout_loc", j608); ("module_path", j609); ("version_opt", (JNum (1))); ("type_decl", j2); ("bin_io_derived", (JBool true)); ("bin_prot_rule", j3333)].
Definition j3335 := jobj [("layout_loc", j157); ("module_path", j1236); ("version_opt", (JNum (1))); ("type_decl", j2); ("bin_io_derived", (JBool true)); ("bin_prot_rule", j1508)].
Definition verification_key_document : json := j156.
Definition protocol_state_document : json := j607.
Definition external_transition_document : json := j3334.
Definition snark_work_document : json := j3335.

Theorem C104_verification_key : layout_of_json verification_key_document = Some verification_key_layout.
Proof. vm_cast_no_check (eq_refl (Some verification_key_layout)). Qed.
Theorem C104_protocol_state : layout_of_json protocol_state_document = Some protocol_state_layout.
Proof. vm_cast_no_check (eq_refl (Some protocol_state_layout)). Qed.
Theorem C104_external_transition : layout_of_json external_transition_document = Some external_transition_layout.
Proof. vm_cast_no_check (eq_refl (Some external_transition_layout)). Qed.
Theorem C104_snark_work : layout_of_json snark_work_document = Some snark_work_layout.
Proof. vm_cast_no_check (eq_refl (Some snark_work_layout)). Qed.

Print Assumptions C104_verification_key.
Print Assumptions C104_protocol_state.
Print Assumptions C104_external_transition.
Print Assumptions C104_snark_work.
