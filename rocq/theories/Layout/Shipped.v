(** The layouts shipped in /repo/protocol/layouts: protocol_state.json,
    snark_work.json, verification_key.json and external_transition.json, as the
    rules that [BinProtRule]'s reader makes of their member [bin_prot_rule] (see
    LayoutJson.v).  Written by a script from the four files; a rule that occurs
    several times is defined once. *)
From Coq Require Import ZArith List String.
From Verif Require Import Loose.Loose.
Import ListNotations.
Open Scope string_scope.
Open Scope list_scope.
Open Scope Z_scope.

Definition l0 := RCustom [].
Definition l1 := RResolved "Snark_params.Tick" l0.
Definition l2 := RRecord [("version", RInt); ("t", l1)].
Definition l3 := RResolved "State_hash" l2.
Definition l4 := RResolved "Ledger_hash0" l2.
Definition l5 := RResolved "Staged_ledger_hash.Aux_hash.Stable.V1" RString.
Definition l6 := RRecord [("version", RInt); ("t", l5)].
Definition l7 := RResolved "Staged_ledger_hash.Aux_hash" l6.
Definition l8 := RResolved "Staged_ledger_hash.Pending_coinbase_aux.Stable.V1" RString.
Definition l9 := RRecord [("version", RInt); ("t", l8)].
Definition l10 := RResolved "Staged_ledger_hash.Pending_coinbase_aux" l9.
Definition l11 := RRecord [("ledger_hash", l4); ("aux_hash", l7); ("pending_coinbase_aux", l10)].
Definition l12 := RResolved "Staged_ledger_hash.Non_snark.Stable.V1" l11.
Definition l13 := RRecord [("version", RInt); ("t", l12)].
Definition l14 := RResolved "Staged_ledger_hash.Non_snark" l13.
Definition l15 := RResolved "Pending_coinbase.Hash_builder" l2.
Definition l16 := RRecord [("version", RInt); ("t", l15)].
Definition l17 := RResolved "Pending_coinbase.Hash_versioned" l16.
Definition l18 := RRecord [("non_snark", l14); ("pending_coinbase_hash", l17)].
Definition l19 := RResolved "Staged_ledger_hash.Poly.Stable.V1" l18.
Definition l20 := RRecord [("version", RInt); ("t", l19)].
Definition l21 := RResolved "Staged_ledger_hash.Poly" l20.
Definition l22 := RRecord [("version", RInt); ("t", l21)].
Definition l23 := RResolved "Staged_ledger_hash" l22.
Definition l24 := RResolved "Unsigned_extended.UInt64" RInt64.
Definition l25 := RRecord [("version", RInt); ("t", l24)].
Definition l26 := RResolved "Unsigned_extended.UInt64" l25.
Definition l27 := RRecord [("version", RInt); ("t", l26)].
Definition l28 := RResolved "Nat.Make64" l27.
Definition l29 := RRecord [("version", RInt); ("t", l28)].
Definition l30 := RResolved "Token_id" l29.
Definition l31 := RResolved "Block_time.Time" l27.
Definition l32 := RRecord [("staged_ledger_hash", l23); ("snarked_ledger_hash", l4); ("genesis_ledger_hash", l4); ("snarked_next_available_token", l30); ("timestamp", l31)].
Definition l33 := RResolved "Blockchain_state.Poly.Stable.V1" l32.
Definition l34 := RRecord [("version", RInt); ("t", l33)].
Definition l35 := RResolved "Blockchain_state.Poly" l34.
Definition l36 := RRecord [("version", RInt); ("t", l35)].
Definition l37 := RResolved "Blockchain_state.Value" l36.
Definition l38 := RResolved "Unsigned_extended.UInt32" RInt32.
Definition l39 := RRecord [("version", RInt); ("t", l38)].
Definition l40 := RResolved "Unsigned_extended.UInt32" l39.
Definition l41 := RRecord [("version", RInt); ("t", l40)].
Definition l42 := RResolved "Nat.Make32" l41.
Definition l43 := RList l42.
Definition l44 := RResolved "Proof_of_stake.Data.Vrf.Output.Truncated.Stable.V1" RString.
Definition l45 := RRecord [("version", RInt); ("t", l44)].
Definition l46 := RResolved "Proof_of_stake.Data.Vrf.Output.Truncated" l45.
Definition l47 := RResolved "Currency.Amount" l27.
Definition l48 := RRecord [("slot_number", l42); ("slots_per_epoch", l42)].
Definition l49 := RResolved "Global_slot.Poly.Stable.V1" l48.
Definition l50 := RRecord [("version", RInt); ("t", l49)].
Definition l51 := RResolved "Global_slot.Poly" l50.
Definition l52 := RRecord [("version", RInt); ("t", l51)].
Definition l53 := RResolved "Global_slot" l52.
Definition l54 := RRecord [("hash", l4); ("total_currency", l47)].
Definition l55 := RResolved "Epoch_ledger.Poly.Stable.V1" l54.
Definition l56 := RRecord [("version", RInt); ("t", l55)].
Definition l57 := RResolved "Epoch_ledger.Poly" l56.
Definition l58 := RRecord [("version", RInt); ("t", l57)].
Definition l59 := RResolved "Epoch_ledger.Value" l58.
Definition l60 := RResolved "Epoch_seed" l2.
Definition l61 := RRecord [("ledger", l59); ("seed", l60); ("start_checkpoint", l3); ("lock_checkpoint", l3); ("epoch_length", l42)].
Definition l62 := RResolved "Epoch_data.Poly.Stable.V1" l61.
Definition l63 := RRecord [("version", RInt); ("t", l62)].
Definition l64 := RResolved "Epoch_data.Poly" l63.
Definition l65 := RRecord [("version", RInt); ("t", l64)].
Definition l66 := RResolved "Proof_of_stake.Data.Epoch_data.Staking_value_versioned.Value" l65.
Definition l67 := RResolved "Proof_of_stake.Data.Epoch_data.Next_value_versioned.Value" l65.
Definition l68 := RRecord [("x", l1); ("is_odd", RBool)].
Definition l69 := RResolved "Compressed_poly.Poly.Stable.V1" l68.
Definition l70 := RRecord [("version", RInt); ("t", l69)].
Definition l71 := RResolved "Compressed_poly.Poly" l70.
Definition l72 := RRecord [("version", RInt); ("t", l71)].
Definition l73 := RResolved "Non_zero_curve_point.Compressed" l72.
Definition l74 := RRecord [("blockchain_length", l42); ("epoch_count", l42); ("min_window_density", l42); ("sub_window_densities", l43); ("last_vrf_output", l46); ("total_currency", l47); ("curr_global_slot", l53); ("global_slot_since_genesis", l42); ("staking_epoch_data", l66); ("next_epoch_data", l67); ("has_ancestor_in_same_checkpoint_window", RBool); ("block_stake_winner", l73); ("block_creator", l73); ("coinbase_receiver", l73); ("supercharge_coinbase", RBool)].
Definition l75 := RResolved "Proof_of_stake.Data.Consensus_state.Poly.Stable.V1" l74.
Definition l76 := RRecord [("version", RInt); ("t", l75)].
Definition l77 := RResolved "Proof_of_stake.Data.Consensus_state.Poly" l76.
Definition l78 := RRecord [("version", RInt); ("t", l77)].
Definition l79 := RResolved "Proof_of_stake.Data.Consensus_state.Value" l78.
Definition l80 := RRecord [("k", l42); ("slots_per_epoch", l42); ("slots_per_sub_window", l42); ("delta", l42); ("genesis_state_timestamp", l31)].
Definition l81 := RResolved "Genesis_constants.Protocol.Poly.Stable.V1" l80.
Definition l82 := RRecord [("version", RInt); ("t", l81)].
Definition l83 := RResolved "Genesis_constants.Protocol.Poly" l82.
Definition l84 := RRecord [("version", RInt); ("t", l83)].
Definition l85 := RResolved "Protocol_constants_checked.Value" l84.
Definition l86 := RRecord [("genesis_state_hash", l3); ("blockchain_state", l37); ("consensus_state", l79); ("constants", l85)].
Definition l87 := RResolved "Protocol_state.Body.Poly.Stable.V1" l86.
Definition l88 := RRecord [("version", RInt); ("t", l87)].
Definition l89 := RResolved "Protocol_state.Body.Poly" l88.
Definition l90 := RRecord [("version", RInt); ("t", l89)].
Definition l91 := RResolved "Protocol_state.Body.Value" l90.
Definition l92 := RRecord [("previous_state_hash", l3); ("body", l91)].
Definition l93 := RResolved "Protocol_state.Poly.Stable.V1" l92.
Definition l94 := RRecord [("version", RInt); ("t", l93)].
Definition l95 := RResolved "Protocol_state.Poly" l94.
Definition l96 := RRecord [("version", RInt); ("t", l95)].
Definition l97 := RResolved "Currency.Fee" l27.
Definition l98 := RResolved "Pending_coinbase.Coinbase_stack" l2.
Definition l99 := RResolved "Pending_coinbase.Stack_hash" l2.
Definition l100 := RRecord [("init", l99); ("curr", l99)].
Definition l101 := RResolved "Pending_coinbase.State_stack.Poly.Stable.V1" l100.
Definition l102 := RRecord [("version", RInt); ("t", l101)].
Definition l103 := RResolved "Pending_coinbase.State_stack.Poly" l102.
Definition l104 := RRecord [("version", RInt); ("t", l103)].
Definition l105 := RResolved "Pending_coinbase.State_stack" l104.
Definition l106 := RRecord [("data", l98); ("state", l105)].
Definition l107 := RResolved "Pending_coinbase.Stack_versioned.Poly.Stable.V1" l106.
Definition l108 := RRecord [("version", RInt); ("t", l107)].
Definition l109 := RResolved "Pending_coinbase.Stack_versioned.Poly" l108.
Definition l110 := RRecord [("version", RInt); ("t", l109)].
Definition l111 := RResolved "Pending_coinbase.Stack_versioned" l110.
Definition l112 := RRecord [("source", l111); ("target", l111)].
Definition l113 := RResolved "Transaction_snark.Pending_coinbase_stack_state.Poly.Stable.V1" l112.
Definition l114 := RRecord [("version", RInt); ("t", l113)].
Definition l115 := RResolved "Transaction_snark.Pending_coinbase_stack_state.Poly" l114.
Definition l116 := RRecord [("version", RInt); ("t", l115)].
Definition l117 := RResolved "Transaction_snark.Pending_coinbase_stack_state" l116.
Definition l118 := RSum [("Pos", 0, []); ("Neg", 1, [])].
Definition l119 := RResolved "Sgn.Stable.V1" l118.
Definition l120 := RRecord [("version", RInt); ("t", l119)].
Definition l121 := RResolved "Sgn" l120.
Definition l122 := RRecord [("magnitude", l97); ("sgn", l121)].
Definition l123 := RResolved "Signed_poly.Stable.V1" l122.
Definition l124 := RRecord [("version", RInt); ("t", l123)].
Definition l125 := RResolved "Signed_poly" l124.
Definition l126 := RRecord [("fee_token_l", l30); ("fee_excess_l", l125); ("fee_token_r", l30); ("fee_excess_r", l125)].
Definition l127 := RResolved "Fee_excess.Poly.Stable.V1" l126.
Definition l128 := RRecord [("version", RInt); ("t", l127)].
Definition l129 := RResolved "Fee_excess.Poly" l128.
Definition l130 := RRecord [("version", RInt); ("t", l129)].
Definition l131 := RResolved "Fee_excess" l130.
Definition l132 := RResolved "[manually-created layout]" RString.
Definition l133 := RRecord [("version", RInt); ("t", l132)].
Definition l134 := RResolved "Sok_message.Digest" l133.
Definition l135 := RRecord [("source", l4); ("target", l4); ("supply_increase", l47); ("pending_coinbase_stack_state", l117); ("fee_excess", l131); ("next_available_token_before", l30); ("next_available_token_after", l30); ("sok_digest", l134)].
Definition l136 := RResolved "Transaction_snark.Statement.Poly.Stable.V1" l135.
Definition l137 := RRecord [("version", RInt); ("t", l136)].
Definition l138 := RResolved "Transaction_snark.Statement.Poly" l137.
Definition l139 := RRecord [("version", RInt); ("t", l138)].
Definition l140 := RResolved "Transaction_snark.Statement.With_sok" l139.
Definition l141 := RResolved "[manually-created layout]" RInt64.
Definition l142 := RRecord [("version", RInt); ("t", l141)].
Definition l143 := RResolved "Constant.Hex64" l142.
Definition l144 := RCustom [l143].
Definition l145 := RResolved "Pickles_type.Vector.Vector2" l144.
Definition l146 := RRecord [("version", RInt); ("t", l145)].
Definition l147 := RResolved "Vector.Vector_2" l146.
Definition l148 := RSum [("Scalar_challenge", 0, [l147])].
Definition l149 := RResolved "Scalar_challenge.Stable.V1" l148.
Definition l150 := RRecord [("version", RInt); ("t", l149)].
Definition l151 := RResolved "Scalar_challenge" l150.
Definition l152 := RRecord [("alpha", l151); ("beta", l147); ("gamma", l147); ("zeta", l151)].
Definition l153 := RResolved "Composition_types.Dlog_based.Proof_state.Deferred_values.Plonk.Minimal.Stable.V1" l152.
Definition l154 := RRecord [("version", RInt); ("t", l153)].
Definition l155 := RResolved "Composition_types.Dlog_based.Proof_state.Deferred_values.Plonk.Minimal" l154.
Definition l156 := RResolved "Zexe_backend.Zexe_backend_common.Stable.Field" l0.
Definition l157 := RSum [("Shifted_value", 0, [l156])].
Definition l158 := RResolved "Shifted_value.Stable.V1" l157.
Definition l159 := RRecord [("version", RInt); ("t", l158)].
Definition l160 := RResolved "Shifted_value" l159.
Definition l161 := RRecord [("prechallenge", l151)].
Definition l162 := RResolved "Bulletproof_challenge.Stable.V1" l161.
Definition l163 := RRecord [("version", RInt); ("t", l162)].
Definition l164 := RResolved "Bulletproof_challenge" l163.
Definition l165 := RCustom [l164].
Definition l166 := RResolved "Pickles_types.Vector.Vector18" l165.
Definition l167 := RRecord [("version", RInt); ("t", l166)].
Definition l168 := RResolved "Vector.Vector_18" l167.
Definition l169 := RRecord [("version", RInt); ("t", l168)].
Definition l170 := RResolved "Basic.Rounds.Step_vector" l169.
Definition l171 := RResolved "Index.Stable.V1" RChar.
Definition l172 := RRecord [("version", RInt); ("t", l171)].
Definition l173 := RResolved "Index" l172.
Definition l174 := RRecord [("plonk", l155); ("combined_inner_product", l160); ("b", l160); ("xi", l151); ("bulletproof_challenges", l170); ("which_branch", l173)].
Definition l175 := RResolved "Composition_types.Dlog_based.Proof_state.Deferred_values.Stable.V1" l174.
Definition l176 := RRecord [("version", RInt); ("t", l175)].
Definition l177 := RResolved "Composition_types.Dlog_based.Proof_state.Deferred_values" l176.
Definition l178 := RResolved "Pickles_types.Vector.Vector4" l144.
Definition l179 := RRecord [("version", RInt); ("t", l178)].
Definition l180 := RResolved "Vector.Vector_4" l179.
Definition l181 := RRecord [("version", RInt); ("t", l180)].
Definition l182 := RResolved "Digest.Constant" l181.
Definition l183 := RTuple [l156; l156].
Definition l184 := RResolved "Curve.Make.Affine.Stable.V1.T" l183.
Definition l185 := RResolved "Pickles_types.Vector.Vector17" l165.
Definition l186 := RRecord [("version", RInt); ("t", l185)].
Definition l187 := RResolved "Vector.Vector_17" l186.
Definition l188 := RRecord [("version", RInt); ("t", l187)].
Definition l189 := RResolved "Basic.Rounds.Wrap_vector" l188.
Definition l190 := RRecord [("version", RInt); ("t", l189)].
Definition l191 := RResolved "Reduced_me_only.Dlog_based.Challenges_vector" l190.
Definition l192 := RCustom [l191].
Definition l193 := RResolved "Pickles_type.Vector.Vector2" l192.
Definition l194 := RRecord [("version", RInt); ("t", l193)].
Definition l195 := RResolved "Vector.Vector_2" l194.
Definition l196 := RRecord [("sg", l184); ("old_bulletproof_challenges", l195)].
Definition l197 := RResolved "Composition_types.Dlog_based.Proof_state.Me_only.Stable.V1" l196.
Definition l198 := RRecord [("version", RInt); ("t", l197)].
Definition l199 := RResolved "Composition_types.Dlog_based.Proof_state.Me_only" l198.
Definition l200 := RRecord [("deferred_values", l177); ("sponge_digest_before_evaluations", l182); ("me_only", l199)].
Definition l201 := RResolved "Composition_types.Dlog_based.Proof_state.Stable.V1" l200.
Definition l202 := RRecord [("version", RInt); ("t", l201)].
Definition l203 := RResolved "Composition_types.Dlog_based.Proof_state" l202.
Definition l204 := RList l184.
Definition l205 := RResolved "[manually-created layout]" l204.
Definition l206 := RRecord [("version", RInt); ("t", l205)].
Definition l207 := RResolved "At_most.At_most_2" l206.
Definition l208 := RList l170.
Definition l209 := RResolved "[manually-created layout]" l208.
Definition l210 := RRecord [("version", RInt); ("t", l209)].
Definition l211 := RResolved "At_most.At_most_2" l210.
Definition l212 := RRecord [("app_state", RUnit); ("sg", l207); ("old_bulletproof_challenges", l211)].
Definition l213 := RResolved "Reduced_me_only.Pairing_based.Stable.V1" l212.
Definition l214 := RRecord [("version", RInt); ("t", l213)].
Definition l215 := RResolved "Reduced_me_only.Pairing_based" l214.
Definition l216 := RRecord [("proof_state", l203); ("pass_through", l215)].
Definition l217 := RResolved "Composition_types.Dlog_based.Statement.Stable.V1" l216.
Definition l218 := RRecord [("version", RInt); ("t", l217)].
Definition l219 := RResolved "Composition_types.Dlog_based.Statement" l218.
Definition l220 := RRecord [("version", RInt); ("t", l219)].
Definition l221 := RResolved "Composition_types.Dlog_based.Statement.Minimal" l220.
Definition l222 := RList l156.
Definition l223 := RResolved "Dlog_plonk_types.Pc_array.Stable.V1" l222.
Definition l224 := RRecord [("version", RInt); ("t", l223)].
Definition l225 := RResolved "Dlog_plonk_types.Pc_array" l224.
Definition l226 := RRecord [("l", l225); ("r", l225); ("o", l225); ("z", l225); ("t", l225); ("f", l225); ("sigma1", l225); ("sigma2", l225)].
Definition l227 := RResolved "Dlog_plonk_types.Evals.Stable.V1" l226.
Definition l228 := RRecord [("version", RInt); ("t", l227)].
Definition l229 := RResolved "Dlog_plonk_types.Evals" l228.
Definition l230 := RTuple [l229; l229].
Definition l231 := RResolved "Proof.Base.Double.Stable.V1" l230.
Definition l232 := RRecord [("version", RInt); ("t", l231)].
Definition l233 := RResolved "Proof.Base.Double" l232.
Definition l234 := RResolved "Proof.Base.Double.Stable.V1" l183.
Definition l235 := RRecord [("version", RInt); ("t", l234)].
Definition l236 := RResolved "Proof.Base.Double" l235.
Definition l237 := RResolved "Dlog_plonk_types.Pc_array.Stable.V1" l204.
Definition l238 := RRecord [("version", RInt); ("t", l237)].
Definition l239 := RResolved "Dlog_plonk_types.Pc_array" l238.
Definition l240 := RRecord [("version", RInt); ("t", l239)].
Definition l241 := RResolved "Dlog_plonk_types.Poly_comm.Without_degree_bound" l240.
Definition l242 := RSum [("Infinity", 0, []); ("Finite", 1, [l184])].
Definition l243 := RResolved "Or_infinity.Stable.V1" l242.
Definition l244 := RRecord [("version", RInt); ("t", l243)].
Definition l245 := RResolved "Or_infinity" l244.
Definition l246 := RList l245.
Definition l247 := RResolved "Dlog_plonk_types.Pc_array.Stable.V1" l246.
Definition l248 := RRecord [("version", RInt); ("t", l247)].
Definition l249 := RResolved "Dlog_plonk_types.Pc_array" l248.
Definition l250 := RRecord [("unshifted", l249); ("shifted", l245)].
Definition l251 := RResolved "Dlog_plonk_types.Poly_comm.With_degree_bound.Stable.V1" l250.
Definition l252 := RRecord [("version", RInt); ("t", l251)].
Definition l253 := RResolved "Dlog_plonk_types.Poly_comm.With_degree_bound" l252.
Definition l254 := RRecord [("l_comm", l241); ("r_comm", l241); ("o_comm", l241); ("z_comm", l241); ("t_comm", l253)].
Definition l255 := RResolved "Dlog_plonk_types.Messages.Stable.V1" l254.
Definition l256 := RRecord [("version", RInt); ("t", l255)].
Definition l257 := RResolved "Dlog_plonk_types.Messages" l256.
Definition l258 := RTuple [l184; l184].
Definition l259 := RList l258.
Definition l260 := RResolved "Dlog_plonk_types.Pc_array.Stable.V1" l259.
Definition l261 := RRecord [("version", RInt); ("t", l260)].
Definition l262 := RResolved "Dlog_plonk_types.Pc_array" l261.
Definition l263 := RRecord [("lr", l262); ("z_1", l156); ("z_2", l156); ("delta", l184); ("sg", l184)].
Definition l264 := RResolved "Dlog_plonk_types.Openings.Bulletproof.Stable.V1" l263.
Definition l265 := RRecord [("version", RInt); ("t", l264)].
Definition l266 := RResolved "Dlog_plonk_types.Openings.Bulletproof" l265.
Definition l267 := RRecord [("proof", l266); ("evals", l230)].
Definition l268 := RResolved "Dlog_plonk_types.Openings.Stable.V1" l267.
Definition l269 := RRecord [("version", RInt); ("t", l268)].
Definition l270 := RResolved "Dlog_plonk_types.Openings" l269.
Definition l271 := RRecord [("messages", l257); ("openings", l270)].
Definition l272 := RResolved "Dlog_plonk_types.Proof.Stable.V1" l271.
Definition l273 := RRecord [("version", RInt); ("t", l272)].
Definition l274 := RResolved "Dlog_plonk_types.Proof" l273.
Definition l275 := RRecord [("version", RInt); ("t", l274)].
Definition l276 := RResolved "Plonk_dlog_proof.Make" l275.
Definition l277 := RRecord [("statement", l221); ("prev_evals", l233); ("prev_x_hat", l236); ("proof", l276)].
Definition l278 := RResolved "Proof.Base.Dlog_based.Stable.V1" l277.
Definition l279 := RRecord [("version", RInt); ("t", l278)].
Definition l280 := RResolved "Proof.Base.Dlog_based" l279.
Definition l281 := RRecord [("version", RInt); ("t", l280)].
Definition l282 := RResolved "Proof.Branching_2.Repr" l281.
Definition l283 := RRecord [("version", RInt); ("t", l282)].
Definition l284 := RResolved "Proof.Branching_2" l283.
Definition l285 := RRecord [("version", RInt); ("t", l284)].
Definition l286 := RResolved "Transaction_snark.Proof" l285.
Definition l287 := RRecord [("statement", l140); ("proof", l286)].
Definition l288 := RResolved "Transaction_snark.Stable.V1" l287.
Definition l289 := RRecord [("version", RInt); ("t", l288)].
Definition l290 := RResolved "Transaction_snark" l289.
Definition l291 := RRecord [("version", RInt); ("t", l290)].
Definition l292 := RResolved "Ledger_proof.Prod" l291.
Definition l293 := RTuple [l292; l292].
Definition l294 := RPolyvar [inl ("One", 3953222, [l292]); inl ("Two", 4203884, [l293])].
Definition l295 := RResolved "One_or_two.Stable.V1" l294.
Definition l296 := RRecord [("version", RInt); ("t", l295)].
Definition l297 := RResolved "One_or_two" l296.
Definition l298 := RRecord [("fee", l97); ("proofs", l297); ("prover", l73)].
Definition l299 := RResolved "Transaction_snark_work.T.Stable.V1" l298.
Definition l300 := RRecord [("version", RInt); ("t", l299)].
Definition l301 := RRecord [("sigma_comm_0", l204); ("sigma_comm_1", l204); ("sigma_comm_2", l204); ("ql_comm", l204); ("qr_comm", l204); ("qo_comm", l204); ("qm_comm", l204); ("qc_comm", l204); ("rcm_comm_0", l204); ("rcm_comm_1", l204); ("rcm_comm_2", l204); ("psm_comm", l204); ("add_comm", l204); ("mul1_comm", l204); ("mul2_comm", l204); ("emul1_comm", l204); ("emul2_comm", l204); ("emul3_comm", l204)].
Definition l302 := RResolved "Plonk_verification_key_evals.Stable.V1" l301.
Definition l303 := RRecord [("version", RInt); ("t", l302)].
Definition l304 := RResolved "Plonk_verification_key_evals" l303.
Definition l305 := RSum [("Pow_2_roots_of_unity", 0, [RInt])].
Definition l306 := RResolved "Domain.Stable.V1" l305.
Definition l307 := RRecord [("version", RInt); ("t", l306)].
Definition l308 := RResolved "Domain" l307.
Definition l309 := RRecord [("h", l308); ("x", l308)].
Definition l310 := RResolved "Domains.Stable.V1" l309.
Definition l311 := RRecord [("version", RInt); ("t", l310)].
Definition l312 := RResolved "Domains" l311.
Definition l313 := RList l312.
Definition l314 := RRecord [("constraints", RInt)].
Definition l315 := RResolved "Verification_key.Data.Stable.V1" l314.
Definition l316 := RRecord [("version", RInt); ("t", l315)].
Definition l317 := RResolved "Verification_key.Data" l316.
Definition l318 := RRecord [("commitments", l304); ("step_domains", l313); ("data", l317)].
Definition l319 := RResolved "Verification_key.Repr.Stable.V1" l318.
Definition l320 := RRecord [("version", RInt); ("t", l319)].
Definition l321 := RResolved "Verification_key.Repr" l320.
Definition l322 := RRecord [("version", RInt); ("t", l321)].
Definition l323 := RResolved "Protocol_state.Value" l96.
Definition l324 := RResolved "Proof" l285.
Definition l325 := RResolved "Transaction_snark_work.T" l300.
Definition l326 := RList l325.
Definition l327 := RResolved "Signed_command_memo.Stable.V1" RString.
Definition l328 := RRecord [("version", RInt); ("t", l327)].
Definition l329 := RResolved "Signed_command_memo" l328.
Definition l330 := RRecord [("fee", l97); ("fee_token", l30); ("fee_payer_pk", l73); ("nonce", l42); ("valid_until", l42); ("memo", l329)].
Definition l331 := RResolved "Signed_command_payload.Common.Poly.Stable.V1" l330.
Definition l332 := RRecord [("version", RInt); ("t", l331)].
Definition l333 := RResolved "Signed_command_payload.Common.Poly" l332.
Definition l334 := RRecord [("version", RInt); ("t", l333)].
Definition l335 := RResolved "Signed_command_payload.Common.Binable_arg" l334.
Definition l336 := RRecord [("version", RInt); ("t", l335)].
Definition l337 := RResolved "Signed_command_payload.Common" l336.
Definition l338 := RRecord [("source_pk", l73); ("receiver_pk", l73); ("token_id", l30); ("amount", l47)].
Definition l339 := RResolved "Payment_payload.Poly.Stable.V1" l338.
Definition l340 := RRecord [("version", RInt); ("t", l339)].
Definition l341 := RResolved "Payment_payload.Poly" l340.
Definition l342 := RRecord [("version", RInt); ("t", l341)].
Definition l343 := RResolved "Payment_payload" l342.
Definition l344 := RSum [("Set_delegate", 0, [l73; l73])].
Definition l345 := RResolved "Stake_delegation.Stable.V1" l344.
Definition l346 := RRecord [("version", RInt); ("t", l345)].
Definition l347 := RResolved "Stake_delegation" l346.
Definition l348 := RRecord [("token_owner_pk", l73); ("disable_new_accounts", RBool)].
Definition l349 := RResolved "New_token_payload.Stable.V1" l348.
Definition l350 := RRecord [("version", RInt); ("t", l349)].
Definition l351 := RResolved "New_token_payload" l350.
Definition l352 := RRecord [("token_id", l30); ("token_owner_pk", l73); ("receiver_pk", l73); ("account_disabled", RBool)].
Definition l353 := RResolved "New_account_payload.Stable.V1" l352.
Definition l354 := RRecord [("version", RInt); ("t", l353)].
Definition l355 := RResolved "New_account_payload" l354.
Definition l356 := RRecord [("token_id", l30); ("token_owner_pk", l73); ("receiver_pk", l73); ("amount", l47)].
Definition l357 := RResolved "Minting_payload.Stable.V1" l356.
Definition l358 := RRecord [("version", RInt); ("t", l357)].
Definition l359 := RResolved "Minting_payload" l358.
Definition l360 := RSum [("Payment", 0, [l343]); ("Stake_delegation", 1, [l347]); ("Create_new_token", 2, [l351]); ("Create_token_account", 3, [l355]); ("Mint_tokens", 4, [l359])].
Definition l361 := RResolved "Signed_command_payload.Body.Binable_arg.Stable.V1" l360.
Definition l362 := RRecord [("version", RInt); ("t", l361)].
Definition l363 := RResolved "Signed_command_payload.Body.Binable_arg" l362.
Definition l364 := RRecord [("version", RInt); ("t", l363)].
Definition l365 := RResolved "Signed_command_payload.Body" l364.
Definition l366 := RRecord [("common", l337); ("body", l365)].
Definition l367 := RResolved "Signed_command_payload.Poly.Stable.V1" l366.
Definition l368 := RRecord [("version", RInt); ("t", l367)].
Definition l369 := RResolved "Signed_command_payload.Poly" l368.
Definition l370 := RRecord [("version", RInt); ("t", l369)].
Definition l371 := RResolved "Signed_command_payload" l370.
Definition l372 := RRecord [("version", RInt); ("t", l73)].
Definition l373 := RResolved "Non_zero_curve_point.Uncompressed" l372.
Definition l374 := RResolved "Snark_params.Make_inner_curve_scalar" l0.
Definition l375 := RTuple [l1; l374].
Definition l376 := RResolved "Signature_poly.Stable.V1" l375.
Definition l377 := RRecord [("version", RInt); ("t", l376)].
Definition l378 := RResolved "Signature_poly" l377.
Definition l379 := RRecord [("version", RInt); ("t", l378)].
Definition l380 := RResolved "Signature" l379.
Definition l381 := RRecord [("payload", l371); ("signer", l373); ("signature", l380)].
Definition l382 := RResolved "Signed_command.Poly.Stable.V1" l381.
Definition l383 := RRecord [("version", RInt); ("t", l382)].
Definition l384 := RResolved "Signed_command.Poly" l383.
Definition l385 := RRecord [("version", RInt); ("t", l384)].
Definition l386 := RResolved "Signed_command" l385.
Definition l387 := RRecord [("pk", l73); ("token_id", l30); ("nonce", l42); ("fee", l97)].
Definition l388 := RResolved "Other_fee_payer.Payload.Poly.Stable.V1" l387.
Definition l389 := RRecord [("version", RInt); ("t", l388)].
Definition l390 := RResolved "Other_fee_payer.Payload.Poly" l389.
Definition l391 := RRecord [("version", RInt); ("t", l390)].
Definition l392 := RResolved "Other_fee_payer.Payload" l391.
Definition l393 := RRecord [("payload", l392); ("signature", l380)].
Definition l394 := RResolved "Other_fee_payer.Stable.V1" l393.
Definition l395 := RRecord [("version", RInt); ("t", l394)].
Definition l396 := RResolved "Other_fee_payer" l395.
Definition l397 := ROption l396.
Definition l398 := RSum [("Set", 0, [l156]); ("Keep", 1, [])].
Definition l399 := RResolved "Snapp_basic.Set_or_keep.Stable.V1" l398.
Definition l400 := RRecord [("version", RInt); ("t", l399)].
Definition l401 := RResolved "Snapp_basic.Set_or_keep" l400.
Definition l402 := RCustom [l401].
Definition l403 := RResolved "Pickles_types.Vector.Vector8" l402.
Definition l404 := RRecord [("version", RInt); ("t", l403)].
Definition l405 := RResolved "Vector.Vector_8" l404.
Definition l406 := RRecord [("version", RInt); ("t", l405)].
Definition l407 := RResolved "Snapp_state.V" l406.
Definition l408 := RSum [("Set", 0, [l73]); ("Keep", 1, [])].
Definition l409 := RResolved "Snapp_basic.Set_or_keep.Stable.V1" l408.
Definition l410 := RRecord [("version", RInt); ("t", l409)].
Definition l411 := RResolved "Snapp_basic.Set_or_keep" l410.
Definition l412 := RRecord [("h", l308)].
Definition l413 := RResolved "Side_loaded_verification_key.Domains.Stable.V1" l412.
Definition l414 := RRecord [("version", RInt); ("t", l413)].
Definition l415 := RResolved "Side_loaded_verification_key.Domains" l414.
Definition l416 := RResolved "Side_loaded_verification_key.Width.Stable.V1" RChar.
Definition l417 := RRecord [("version", RInt); ("t", l416)].
Definition l418 := RResolved "Side_loaded_verification_key.Width" l417.
Definition l419 := RTuple [l415; l418].
Definition l420 := RList l419.
Definition l421 := RResolved "[manually-created layout]" l420.
Definition l422 := RRecord [("version", RInt); ("t", l421)].
Definition l423 := RResolved "At_most.At_most_8" l422.
Definition l424 := RRecord [("version", RInt); ("t", l423)].
Definition l425 := RResolved "Side_loaded_verification_key.Max_branches_vec" l424.
Definition l426 := RRecord [("step_data", l425); ("max_width", l418); ("wrap_index", l304)].
Definition l427 := RResolved "Side_loaded_verification_key.Repr.Stable.V1" l426.
Definition l428 := RRecord [("version", RInt); ("t", l427)].
Definition l429 := RResolved "Side_loaded_verification_key.Repr" l428.
Definition l430 := RRecord [("version", RInt); ("t", l429)].
Definition l431 := RResolved "Side_loaded_verification_key.R" l430.
Definition l432 := RRecord [("version", RInt); ("t", l431)].
Definition l433 := RResolved "Side_loaded_verification_key" l432.
Definition l434 := RRecord [("data", l433); ("hash", l156)].
Definition l435 := RResolved "With_hash.Stable.V1" l434.
Definition l436 := RRecord [("version", RInt); ("t", l435)].
Definition l437 := RResolved "With_hash" l436.
Definition l438 := RSum [("Set", 0, [l437]); ("Keep", 1, [])].
Definition l439 := RResolved "Snapp_basic.Set_or_keep.Stable.V1" l438.
Definition l440 := RRecord [("version", RInt); ("t", l439)].
Definition l441 := RResolved "Snapp_basic.Set_or_keep" l440.
Definition l442 := RSum [("None", 0, []); ("Either", 1, []); ("Proof", 2, []); ("Signature", 3, []); ("Both", 4, []); ("Impossible", 5, [])].
Definition l443 := RResolved "Permissions.Auth_required.Stable.V1" l442.
Definition l444 := RRecord [("version", RInt); ("t", l443)].
Definition l445 := RResolved "Permissions.Auth_required" l444.
Definition l446 := RRecord [("stake", RBool); ("edit_state", l445); ("send", l445); ("receive", l445); ("set_delegate", l445); ("set_permissions", l445); ("set_verification_key", l445)].
Definition l447 := RResolved "Permissions.Poly.Stable.V1" l446.
Definition l448 := RRecord [("version", RInt); ("t", l447)].
Definition l449 := RResolved "Permissions.Poly" l448.
Definition l450 := RRecord [("version", RInt); ("t", l449)].
Definition l451 := RResolved "Permissions" l450.
Definition l452 := RSum [("Set", 0, [l451]); ("Keep", 1, [])].
Definition l453 := RResolved "Snapp_basic.Set_or_keep.Stable.V1" l452.
Definition l454 := RRecord [("version", RInt); ("t", l453)].
Definition l455 := RResolved "Snapp_basic.Set_or_keep" l454.
Definition l456 := RRecord [("app_state", l407); ("delegate", l411); ("verification_key", l441); ("permissions", l455)].
Definition l457 := RResolved "Snapp_command.Party.Update.Poly.Stable.V1" l456.
Definition l458 := RRecord [("version", RInt); ("t", l457)].
Definition l459 := RResolved "Snapp_command.Party.Update.Poly" l458.
Definition l460 := RRecord [("version", RInt); ("t", l459)].
Definition l461 := RResolved "Snapp_command.Party.Update" l460.
Definition l462 := RRecord [("magnitude", l47); ("sgn", l121)].
Definition l463 := RResolved "Signed_poly.Stable.V1" l462.
Definition l464 := RRecord [("version", RInt); ("t", l463)].
Definition l465 := RResolved "Signed_poly" l464.
Definition l466 := RRecord [("pk", l73); ("update", l461); ("delta", l465)].
Definition l467 := RResolved "Snapp_command.Party.Body.Poly.Stable.V1" l466.
Definition l468 := RRecord [("version", RInt); ("t", l467)].
Definition l469 := RResolved "Snapp_command.Party.Body.Poly" l468.
Definition l470 := RRecord [("version", RInt); ("t", l469)].
Definition l471 := RResolved "Snapp_command.Party.Body" l470.
Definition l472 := RRecord [("version", RInt); ("t", l47)].
Definition l473 := RResolved "Currency.Balance" l472.
Definition l474 := RRecord [("lower", l473); ("upper", l473)].
Definition l475 := RResolved "Snapp_predicate.Closed_interval.Stable.V1" l474.
Definition l476 := RRecord [("version", RInt); ("t", l475)].
Definition l477 := RResolved "Snapp_predicate.Closed_interval" l476.
Definition l478 := RSum [("Check", 0, [l477]); ("Ignore", 1, [])].
Definition l479 := RResolved "Snapp_basic.Or_ignore.Stable.V1" l478.
Definition l480 := RRecord [("version", RInt); ("t", l479)].
Definition l481 := RResolved "Snapp_basic.Or_ignore" l480.
Definition l482 := RRecord [("version", RInt); ("t", l481)].
Definition l483 := RResolved "Snapp_predicate.Numeric" l482.
Definition l484 := RRecord [("lower", l42); ("upper", l42)].
Definition l485 := RResolved "Snapp_predicate.Closed_interval.Stable.V1" l484.
Definition l486 := RRecord [("version", RInt); ("t", l485)].
Definition l487 := RResolved "Snapp_predicate.Closed_interval" l486.
Definition l488 := RSum [("Check", 0, [l487]); ("Ignore", 1, [])].
Definition l489 := RResolved "Snapp_basic.Or_ignore.Stable.V1" l488.
Definition l490 := RRecord [("version", RInt); ("t", l489)].
Definition l491 := RResolved "Snapp_basic.Or_ignore" l490.
Definition l492 := RRecord [("version", RInt); ("t", l491)].
Definition l493 := RResolved "Snapp_predicate.Numeric" l492.
Definition l494 := RResolved "Receipt.Chain_hash" l2.
Definition l495 := RSum [("Check", 0, [l494]); ("Ignore", 1, [])].
Definition l496 := RResolved "Snapp_basic.Or_ignore.Stable.V1" l495.
Definition l497 := RRecord [("version", RInt); ("t", l496)].
Definition l498 := RResolved "Snapp_basic.Or_ignore" l497.
Definition l499 := RSum [("Check", 0, [l73]); ("Ignore", 1, [])].
Definition l500 := RResolved "Snapp_basic.Or_ignore.Stable.V1" l499.
Definition l501 := RRecord [("version", RInt); ("t", l500)].
Definition l502 := RResolved "Snapp_basic.Or_ignore" l501.
Definition l503 := RSum [("Check", 0, [l156]); ("Ignore", 1, [])].
Definition l504 := RResolved "Snapp_basic.Or_ignore.Stable.V1" l503.
Definition l505 := RRecord [("version", RInt); ("t", l504)].
Definition l506 := RResolved "Snapp_basic.Or_ignore" l505.
Definition l507 := RCustom [l506].
Definition l508 := RResolved "Pickles_types.Vector.Vector8" l507.
Definition l509 := RRecord [("version", RInt); ("t", l508)].
Definition l510 := RResolved "Vector.Vector_8" l509.
Definition l511 := RRecord [("version", RInt); ("t", l510)].
Definition l512 := RResolved "Snapp_state.V" l511.
Definition l513 := RRecord [("balance", l483); ("nonce", l493); ("receipt_chain_hash", l498); ("public_key", l502); ("delegate", l502); ("state", l512)].
Definition l514 := RResolved "Snapp_predicate.Account.Poly.Stable.V1" l513.
Definition l515 := RRecord [("version", RInt); ("t", l514)].
Definition l516 := RResolved "Snapp_predicate.Account.Poly" l515.
Definition l517 := RRecord [("version", RInt); ("t", l516)].
Definition l518 := RResolved "Snapp_predicate.Account" l517.
Definition l519 := RSum [("Empty", 0, []); ("Non_empty", 1, []); ("Any", 2, [])].
Definition l520 := RResolved "Snapp_basic.Account_state.Stable.V1" l519.
Definition l521 := RRecord [("version", RInt); ("t", l520)].
Definition l522 := RResolved "Snapp_basic.Account_state" l521.
Definition l523 := RRecord [("prev", l522); ("next", l522)].
Definition l524 := RResolved "Snapp_basic.Transition.Stable.V1" l523.
Definition l525 := RRecord [("version", RInt); ("t", l524)].
Definition l526 := RResolved "Snapp_basic.Transition" l525.
Definition l527 := RRecord [("predicate", l518); ("account_transition", l526); ("account_vk", l506)].
Definition l528 := RResolved "Snapp_predicate.Other.Poly.Stable.V1" l527.
Definition l529 := RRecord [("version", RInt); ("t", l528)].
Definition l530 := RResolved "Snapp_predicate.Other.Poly" l529.
Definition l531 := RRecord [("version", RInt); ("t", l530)].
Definition l532 := RResolved "Snapp_predicate.Other" l531.
Definition l533 := RSum [("Check", 0, [l4]); ("Ignore", 1, [])].
Definition l534 := RResolved "Snapp_basic.Or_ignore.Stable.V1" l533.
Definition l535 := RRecord [("version", RInt); ("t", l534)].
Definition l536 := RResolved "Snapp_basic.Or_ignore" l535.
Definition l537 := RRecord [("lower", l30); ("upper", l30)].
Definition l538 := RResolved "Snapp_predicate.Closed_interval.Stable.V1" l537.
Definition l539 := RRecord [("version", RInt); ("t", l538)].
Definition l540 := RResolved "Snapp_predicate.Closed_interval" l539.
Definition l541 := RSum [("Check", 0, [l540]); ("Ignore", 1, [])].
Definition l542 := RResolved "Snapp_basic.Or_ignore.Stable.V1" l541.
Definition l543 := RRecord [("version", RInt); ("t", l542)].
Definition l544 := RResolved "Snapp_basic.Or_ignore" l543.
Definition l545 := RRecord [("version", RInt); ("t", l544)].
Definition l546 := RResolved "Snapp_predicate.Numeric" l545.
Definition l547 := RRecord [("lower", l31); ("upper", l31)].
Definition l548 := RResolved "Snapp_predicate.Closed_interval.Stable.V1" l547.
Definition l549 := RRecord [("version", RInt); ("t", l548)].
Definition l550 := RResolved "Snapp_predicate.Closed_interval" l549.
Definition l551 := RSum [("Check", 0, [l550]); ("Ignore", 1, [])].
Definition l552 := RResolved "Snapp_basic.Or_ignore.Stable.V1" l551.
Definition l553 := RRecord [("version", RInt); ("t", l552)].
Definition l554 := RResolved "Snapp_basic.Or_ignore" l553.
Definition l555 := RRecord [("version", RInt); ("t", l554)].
Definition l556 := RResolved "Snapp_predicate.Numeric" l555.
Definition l557 := RRecord [("lower", l47); ("upper", l47)].
Definition l558 := RResolved "Snapp_predicate.Closed_interval.Stable.V1" l557.
Definition l559 := RRecord [("version", RInt); ("t", l558)].
Definition l560 := RResolved "Snapp_predicate.Closed_interval" l559.
Definition l561 := RSum [("Check", 0, [l560]); ("Ignore", 1, [])].
Definition l562 := RResolved "Snapp_basic.Or_ignore.Stable.V1" l561.
Definition l563 := RRecord [("version", RInt); ("t", l562)].
Definition l564 := RResolved "Snapp_basic.Or_ignore" l563.
Definition l565 := RRecord [("version", RInt); ("t", l564)].
Definition l566 := RResolved "Snapp_predicate.Numeric" l565.
Definition l567 := RRecord [("hash", l536); ("total_currency", l566)].
Definition l568 := RResolved "Epoch_ledger.Poly.Stable.V1" l567.
Definition l569 := RRecord [("version", RInt); ("t", l568)].
Definition l570 := RResolved "Epoch_ledger.Poly" l569.
Definition l571 := RSum [("Check", 0, [l60]); ("Ignore", 1, [])].
Definition l572 := RResolved "Snapp_basic.Or_ignore.Stable.V1" l571.
Definition l573 := RRecord [("version", RInt); ("t", l572)].
Definition l574 := RResolved "Snapp_basic.Or_ignore" l573.
Definition l575 := RSum [("Check", 0, [l3]); ("Ignore", 1, [])].
Definition l576 := RResolved "Snapp_basic.Or_ignore.Stable.V1" l575.
Definition l577 := RRecord [("version", RInt); ("t", l576)].
Definition l578 := RResolved "Snapp_basic.Or_ignore" l577.
Definition l579 := RRecord [("ledger", l570); ("seed", l574); ("start_checkpoint", l578); ("lock_checkpoint", l578); ("epoch_length", l493)].
Definition l580 := RResolved "Epoch_data.Poly.Stable.V1" l579.
Definition l581 := RRecord [("version", RInt); ("t", l580)].
Definition l582 := RResolved "Epoch_data.Poly" l581.
Definition l583 := RRecord [("version", RInt); ("t", l582)].
Definition l584 := RResolved "Snapp_predicate.Protocol_state.Epoch_data" l583.
Definition l585 := RRecord [("snarked_ledger_hash", l536); ("snarked_next_available_token", l546); ("timestamp", l556); ("blockchain_length", l493); ("min_window_density", l493); ("last_vrf_output", RUnit); ("total_currency", l566); ("curr_global_slot", l493); ("global_slot_since_genesis", l493); ("staking_epoch_data", l584); ("next_epoch_data", l584)].
Definition l586 := RResolved "Snapp_predicate.Protocol_state.Poly.Stable.V1" l585.
Definition l587 := RRecord [("version", RInt); ("t", l586)].
Definition l588 := RResolved "Snapp_predicate.Protocol_state.Poly" l587.
Definition l589 := RRecord [("version", RInt); ("t", l588)].
Definition l590 := RResolved "Snapp_predicate.Protocol_state" l589.
Definition l591 := RRecord [("self_predicate", l518); ("other", l532); ("fee_payer", l502); ("protocol_state_predicate", l590)].
Definition l592 := RResolved "Snapp_predicate.Poly.Stable.V1" l591.
Definition l593 := RRecord [("version", RInt); ("t", l592)].
Definition l594 := RResolved "Snapp_predicate.Poly" l593.
Definition l595 := RRecord [("version", RInt); ("t", l594)].
Definition l596 := RResolved "Snapp_predicate" l595.
Definition l597 := RRecord [("body", l471); ("predicate", l596)].
Definition l598 := RResolved "Snapp_command.Party.Predicated.Poly.Stable.V1" l597.
Definition l599 := RRecord [("version", RInt); ("t", l598)].
Definition l600 := RResolved "Snapp_command.Party.Predicated.Poly" l599.
Definition l601 := RRecord [("version", RInt); ("t", l600)].
Definition l602 := RResolved "Snapp_command.Party.Predicated.Proved" l601.
Definition l603 := RRecord [("version", RInt); ("t", l195)].
Definition l604 := RResolved "Side_loaded_verification_key.Width.Max_vector" l603.
Definition l605 := RRecord [("sg", l184); ("old_bulletproof_challenges", l604)].
Definition l606 := RResolved "Composition_types.Dlog_based.Proof_state.Me_only.Stable.V1" l605.
Definition l607 := RRecord [("version", RInt); ("t", l606)].
Definition l608 := RResolved "Composition_types.Dlog_based.Proof_state.Me_only" l607.
Definition l609 := RRecord [("deferred_values", l177); ("sponge_digest_before_evaluations", l182); ("me_only", l608)].
Definition l610 := RResolved "Composition_types.Dlog_based.Proof_state.Stable.V1" l609.
Definition l611 := RRecord [("version", RInt); ("t", l610)].
Definition l612 := RResolved "Composition_types.Dlog_based.Proof_state" l611.
Definition l613 := RRecord [("version", RInt); ("t", l207)].
Definition l614 := RResolved "Side_loaded_verification_key.Width.Max_at_most" l613.
Definition l615 := RRecord [("version", RInt); ("t", l211)].
Definition l616 := RResolved "Side_loaded_verification_key.Width.Max_at_most" l615.
Definition l617 := RRecord [("app_state", RUnit); ("sg", l614); ("old_bulletproof_challenges", l616)].
Definition l618 := RResolved "Reduced_me_only.Pairing_based.Stable.V1" l617.
Definition l619 := RRecord [("version", RInt); ("t", l618)].
Definition l620 := RResolved "Reduced_me_only.Pairing_based" l619.
Definition l621 := RRecord [("proof_state", l612); ("pass_through", l620)].
Definition l622 := RResolved "Composition_types.Dlog_based.Statement.Stable.V1" l621.
Definition l623 := RRecord [("version", RInt); ("t", l622)].
Definition l624 := RResolved "Composition_types.Dlog_based.Statement" l623.
Definition l625 := RRecord [("version", RInt); ("t", l624)].
Definition l626 := RResolved "Composition_types.Dlog_based.Statement.Minimal" l625.
Definition l627 := RRecord [("statement", l626); ("prev_evals", l233); ("prev_x_hat", l236); ("proof", l276)].
Definition l628 := RResolved "Proof.Base.Dlog_based.Stable.V1" l627.
Definition l629 := RRecord [("version", RInt); ("t", l628)].
Definition l630 := RResolved "Proof.Base.Dlog_based" l629.
Definition l631 := RRecord [("version", RInt); ("t", l630)].
Definition l632 := RResolved "Proof.Branching_max.Repr" l631.
Definition l633 := RRecord [("version", RInt); ("t", l632)].
Definition l634 := RResolved "Proof.Branching_max" l633.
Definition l635 := RSum [("Proof", 0, [l634]); ("Signature", 1, [l380]); ("Both", 2, [l380; l634]); ("None_given", 3, [])].
Definition l636 := RResolved "Control.Stable.V1" l635.
Definition l637 := RRecord [("version", RInt); ("t", l636)].
Definition l638 := RResolved "Control" l637.
Definition l639 := RRecord [("data", l602); ("authorization", l638)].
Definition l640 := RResolved "Snapp_command.Party.Authorized.Poly.Stable.V1" l639.
Definition l641 := RRecord [("version", RInt); ("t", l640)].
Definition l642 := RResolved "Snapp_command.Party.Authorized.Poly" l641.
Definition l643 := RRecord [("version", RInt); ("t", l642)].
Definition l644 := RResolved "Snapp_command.Party.Authorized.Proved" l643.
Definition l645 := RRecord [("body", l471); ("predicate", RUnit)].
Definition l646 := RResolved "Snapp_command.Party.Predicated.Poly.Stable.V1" l645.
Definition l647 := RRecord [("version", RInt); ("t", l646)].
Definition l648 := RResolved "Snapp_command.Party.Predicated.Poly" l647.
Definition l649 := RRecord [("version", RInt); ("t", l648)].
Definition l650 := RResolved "Snapp_command.Party.Predicated.Empty" l649.
Definition l651 := RRecord [("data", l650); ("authorization", RUnit)].
Definition l652 := RResolved "Snapp_command.Party.Authorized.Poly.Stable.V1" l651.
Definition l653 := RRecord [("version", RInt); ("t", l652)].
Definition l654 := RResolved "Snapp_command.Party.Authorized.Poly" l653.
Definition l655 := RRecord [("version", RInt); ("t", l654)].
Definition l656 := RResolved "Snapp_command.Party.Authorized.Empty" l655.
Definition l657 := ROption l656.
Definition l658 := RRecord [("token_id", l30); ("fee_payment", l397); ("one", l644); ("two", l657)].
Definition l659 := RResolved "Snapp_command.Inner.Stable.V1" l658.
Definition l660 := RRecord [("version", RInt); ("t", l659)].
Definition l661 := RResolved "Snapp_command.Inner" l660.
Definition l662 := RRecord [("body", l471); ("predicate", l42)].
Definition l663 := RResolved "Snapp_command.Party.Predicated.Poly.Stable.V1" l662.
Definition l664 := RRecord [("version", RInt); ("t", l663)].
Definition l665 := RResolved "Snapp_command.Party.Predicated.Poly" l664.
Definition l666 := RRecord [("version", RInt); ("t", l665)].
Definition l667 := RResolved "Snapp_command.Party.Predicated.Signed" l666.
Definition l668 := RRecord [("data", l667); ("authorization", l380)].
Definition l669 := RResolved "Snapp_command.Party.Authorized.Poly.Stable.V1" l668.
Definition l670 := RRecord [("version", RInt); ("t", l669)].
Definition l671 := RResolved "Snapp_command.Party.Authorized.Poly" l670.
Definition l672 := RRecord [("version", RInt); ("t", l671)].
Definition l673 := RResolved "Snapp_command.Party.Authorized.Signed" l672.
Definition l674 := RRecord [("token_id", l30); ("fee_payment", l397); ("one", l644); ("two", l673)].
Definition l675 := RResolved "Snapp_command.Inner.Stable.V1" l674.
Definition l676 := RRecord [("version", RInt); ("t", l675)].
Definition l677 := RResolved "Snapp_command.Inner" l676.
Definition l678 := RRecord [("token_id", l30); ("fee_payment", l397); ("one", l644); ("two", l644)].
Definition l679 := RResolved "Snapp_command.Inner.Stable.V1" l678.
Definition l680 := RRecord [("version", RInt); ("t", l679)].
Definition l681 := RResolved "Snapp_command.Inner" l680.
Definition l682 := RRecord [("token_id", l30); ("fee_payment", l397); ("one", l673); ("two", l673)].
Definition l683 := RResolved "Snapp_command.Inner.Stable.V1" l682.
Definition l684 := RRecord [("version", RInt); ("t", l683)].
Definition l685 := RResolved "Snapp_command.Inner" l684.
Definition l686 := RRecord [("token_id", l30); ("fee_payment", l397); ("one", l673); ("two", l657)].
Definition l687 := RResolved "Snapp_command.Inner.Stable.V1" l686.
Definition l688 := RRecord [("version", RInt); ("t", l687)].
Definition l689 := RResolved "Snapp_command.Inner" l688.
Definition l690 := RSum [("Proved_empty", 0, [l661]); ("Proved_signed", 1, [l677]); ("Proved_proved", 2, [l681]); ("Signed_signed", 3, [l685]); ("Signed_empty", 4, [l689])].
Definition l691 := RResolved "Snapp_command.Binable_arg.Stable.V1" l690.
Definition l692 := RRecord [("version", RInt); ("t", l691)].
Definition l693 := RResolved "Snapp_command.Binable_arg" l692.
Definition l694 := RRecord [("version", RInt); ("t", l693)].
Definition l695 := RResolved "Snapp_command" l694.
Definition l696 := RSum [("Signed_command", 0, [l386]); ("Snapp_command", 1, [l695])].
Definition l697 := RResolved "User_command.Poly.Stable.V1" l696.
Definition l698 := RRecord [("version", RInt); ("t", l697)].
Definition l699 := RResolved "User_command.Poly" l698.
Definition l700 := RRecord [("version", RInt); ("t", l699)].
Definition l701 := RResolved "User_command" l700.
Definition l702 := ROption l47.
Definition l703 := ROption l30.
Definition l704 := RRecord [("fee_payer_account_creation_fee_paid", l702); ("receiver_account_creation_fee_paid", l702); ("created_token", l703)].
Definition l705 := RResolved "Transaction_status.Auxiliary_data.Stable.V1" l704.
Definition l706 := RRecord [("version", RInt); ("t", l705)].
Definition l707 := RResolved "Transaction_status.Auxiliary_data" l706.
Definition l708 := ROption l473.
Definition l709 := RRecord [("fee_payer_balance", l708); ("source_balance", l708); ("receiver_balance", l708)].
Definition l710 := RResolved "Transaction_status.Balance_data.Stable.V1" l709.
Definition l711 := RRecord [("version", RInt); ("t", l710)].
Definition l712 := RResolved "Transaction_status.Balance_data" l711.
Definition l713 := RSum [("Predicate", 0, []); ("Source_not_present", 1, []); ("Receiver_not_present", 2, []); ("Amount_insufficient_to_create_account", 3, []); ("Cannot_pay_creation_fee_in_token", 4, []); ("Source_insufficient_balance", 5, []); ("Source_minimum_balance_violation", 6, []); ("Receiver_already_exists", 7, []); ("Not_token_owner", 8, []); ("Mismatched_token_permissions", 9, []); ("Overflow", 10, []); ("Signed_command_on_snapp_account", 11, []); ("Snapp_account_not_present", 12, []); ("Update_not_permitted", 13, []); ("Incorrect_nonce", 14, [])].
Definition l714 := RResolved "Transaction_status.Failure.Stable.V1" l713.
Definition l715 := RRecord [("version", RInt); ("t", l714)].
Definition l716 := RResolved "Transaction_status.Failure" l715.
Definition l717 := RSum [("Applied", 0, [l707; l712]); ("Failed", 1, [l716; l712])].
Definition l718 := RResolved "Transaction_status.Stable.V1" l717.
Definition l719 := RRecord [("version", RInt); ("t", l718)].
Definition l720 := RResolved "Transaction_status" l719.
Definition l721 := RRecord [("data", l701); ("status", l720)].
Definition l722 := RResolved "With_status.Stable.V1" l721.
Definition l723 := RRecord [("version", RInt); ("t", l722)].
Definition l724 := RResolved "With_status" l723.
Definition l725 := RList l724.
Definition l726 := RRecord [("receiver_pk", l73); ("fee", l97)].
Definition l727 := RResolved "Coinbase_fee_transfer.Stable.V1" l726.
Definition l728 := RRecord [("version", RInt); ("t", l727)].
Definition l729 := RResolved "Coinbase_fee_transfer" l728.
Definition l730 := RRecord [("version", RInt); ("t", l729)].
Definition l731 := RResolved "Staged_ledger_diff.Ft" l730.
Definition l732 := ROption l731.
Definition l733 := RTuple [l731; l732].
Definition l734 := ROption l733.
Definition l735 := RSum [("Zero", 0, []); ("One", 1, [l732]); ("Two", 2, [l734])].
Definition l736 := RResolved "Staged_ledger_diff.At_most_two.Stable.V1" l735.
Definition l737 := RRecord [("version", RInt); ("t", l736)].
Definition l738 := RResolved "Staged_ledger_diff.At_most_two" l737.
Definition l739 := RRecord [("coinbase_receiver_balance", l473); ("fee_transfer_receiver_balance", l708)].
Definition l740 := RResolved "Transaction_status.Coinbase_balance_data.Stable.V1" l739.
Definition l741 := RRecord [("version", RInt); ("t", l740)].
Definition l742 := RResolved "Transaction_status.Coinbase_balance_data" l741.
Definition l743 := RRecord [("receiver1_balance", l473); ("receiver2_balance", l708)].
Definition l744 := RResolved "Transaction_status.Fee_transfer_balance_data.Stable.V1" l743.
Definition l745 := RRecord [("version", RInt); ("t", l744)].
Definition l746 := RResolved "Transaction_status.Fee_transfer_balance_data" l745.
Definition l747 := RSum [("Coinbase", 0, [l742]); ("Fee_transfer", 1, [l746])].
Definition l748 := RResolved "Transaction_status.Internal_command_balance_data.Stable.V1" l747.
Definition l749 := RRecord [("version", RInt); ("t", l748)].
Definition l750 := RResolved "Transaction_status.Internal_command_balance_data" l749.
Definition l751 := RList l750.
Definition l752 := RRecord [("completed_works", l326); ("commands", l725); ("coinbase", l738); ("internal_command_balances", l751)].
Definition l753 := RResolved "Staged_ledger_diff.Pre_diff_two.Stable.V1" l752.
Definition l754 := RRecord [("version", RInt); ("t", l753)].
Definition l755 := RResolved "Staged_ledger_diff.Pre_diff_two" l754.
Definition l756 := RRecord [("version", RInt); ("t", l755)].
Definition l757 := RResolved "Staged_ledger_diff.Pre_diff_with_at_most_two_coinbase" l756.
Definition l758 := RSum [("Zero", 0, []); ("One", 1, [l732])].
Definition l759 := RResolved "Staged_ledger_diff.At_most_one.Stable.V1" l758.
Definition l760 := RRecord [("version", RInt); ("t", l759)].
Definition l761 := RResolved "Staged_ledger_diff.At_most_one" l760.
Definition l762 := RRecord [("completed_works", l326); ("commands", l725); ("coinbase", l761); ("internal_command_balances", l751)].
Definition l763 := RResolved "Staged_ledger_diff.Pre_diff_one.Stable.V1" l762.
Definition l764 := RRecord [("version", RInt); ("t", l763)].
Definition l765 := RResolved "Staged_ledger_diff.Pre_diff_one" l764.
Definition l766 := RRecord [("version", RInt); ("t", l765)].
Definition l767 := RResolved "Staged_ledger_diff.Pre_diff_with_at_most_one_coinbase" l766.
Definition l768 := ROption l767.
Definition l769 := RTuple [l757; l768].
Definition l770 := RResolved "Staged_ledger_diff.Diff.Stable.V1" l769.
Definition l771 := RRecord [("version", RInt); ("t", l770)].
Definition l772 := RResolved "Staged_ledger_diff.Diff" l771.
Definition l773 := RRecord [("diff", l772)].
Definition l774 := RResolved "Staged_ledger_diff.Stable.V1" l773.
Definition l775 := RRecord [("version", RInt); ("t", l774)].
Definition l776 := RResolved "Staged_ledger_diff" l775.
Definition l777 := RResolved "State_body_hash" l2.
Definition l778 := RList l777.
Definition l779 := RTuple [l3; l778].
Definition l780 := RRecord [("major", RInt); ("minor", RInt); ("patch", RInt)].
Definition l781 := RResolved "Protocol_version.Stable.V1" l780.
Definition l782 := RRecord [("version", RInt); ("t", l781)].
Definition l783 := RResolved "Protocol_version" l782.
Definition l784 := ROption l783.
Definition l785 := RResolved "Mina_transition.External_transition.Validate_callback" RUnit.
Definition l786 := RRecord [("protocol_state", l323); ("protocol_state_proof", l324); ("staged_ledger_diff", l776); ("delta_transition_chain_proof", l779); ("current_protocol_version", l783); ("proposed_protocol_version_opt", l784); ("validation_callback", l785)].
Definition l787 := RResolved "External_transition.Raw_versioned__.Stable.V1" l786.
Definition l788 := RRecord [("version", RInt); ("t", l787)].
Definition protocol_state_layout : rule := l96.
Definition snark_work_layout : rule := l300.
Definition verification_key_layout : rule := l322.
Definition external_transition_layout : rule := l788.
