-Q theories Verif
theories/Algebra_proofs.v
theories/Algo.v
theories/Algo_claims.v
theories/Algo_proofs.v
theories/Algo_spec.v
theories/Anymode.v
theories/Anymode_claims.v
theories/Anymode_proofs.v
theories/Anymode_spec.v
theories/Arith_claims.v
theories/Blend_claims.v
theories/Blend_proofs.v
theories/Blend_spec.v
theories/Cfrac.v
theories/Cfrac_claims.v
theories/Cfrac_proofs.v
theories/Cfrac_spec.v
theories/Charstream.v
theories/Charstream_claims.v
theories/Charstream_proofs.v
theories/Charstream_spec.v
theories/Chrono.v
theories/Chrono2.v
theories/Chrono2_claims.v
theories/Chrono2_proofs.v
theories/Chrono2_spec.v
theories/Chrono3_claims.v
theories/Chrono3_proofs.v
theories/Chrono3_spec.v
theories/Chrono4_claims.v
theories/Chrono4_proofs.v
theories/Chrono_claims.v
theories/Chrono_proofs.v
theories/Chrono_spec.v
theories/Cmp_claims.v
theories/Cmp_proofs.v
theories/Convert_claims.v
theories/Defined2_claims.v
theories/Defined2_proofs.v
theories/Defined2_spec.v
theories/Defined_claims.v
theories/Defined_proofs.v
theories/Defined_spec.v
theories/Dyadic_claims.v
theories/Dyadic_proofs.v
theories/Dyadic_spec.v
theories/Effects.v
theories/Effects_claims.v
theories/Effects_proofs.v
theories/Effects_spec.v
theories/Euclid_claims.v
theories/Euclid_proofs.v
theories/Euclid_spec.v
theories/Except.v
theories/Except_claims.v
theories/Except_proofs.v
theories/Except_spec.v
theories/FastIO_claims.v
theories/FastIO_proofs.v
theories/FastIO_spec.v
theories/Flags.v
theories/Flags_claims.v
theories/Flags_proofs.v
theories/Flags_spec.v
theories/Float.v
theories/Float2_proofs.v
theories/Float3_proofs.v
theories/Float3_spec.v
theories/Float4_proofs.v
theories/Float5_proofs.v
theories/FloatUnsigned_claims.v
theories/Float_claims.v
theories/Float_proofs.v
theories/Float_spec.v
theories/Fmath.v
theories/Fmath2_proofs.v
theories/Fmath_claims.v
theories/Fmath_proofs.v
theories/Fmath_spec.v
theories/Format.v
theories/Format_claims.v
theories/Format_proofs.v
theories/Format_spec.v
theories/Fraction.v
theories/Fraction_claims.v
theories/Fraction_proofs.v
theories/Fraction_spec.v
theories/Hash.v
theories/Hash_claims.v
theories/Hash_proofs.v
theories/Laws_proofs.v
theories/Limits.v
theories/Limits2.v
theories/Limits2_claims.v
theories/Limits2_proofs.v
theories/Limits_claims.v
theories/Limits_proofs.v
theories/LitDef_claims.v
theories/LitDef_proofs.v
theories/LitDef_spec.v
theories/LitFloat_claims.v
theories/LitFloat_proofs.v
theories/LitFloat_spec.v
theories/Literals.v
theories/Literals_claims.v
theories/Literals_proofs.v
theories/Literals_spec.v
theories/Litexpr.v
theories/Litexpr_claims.v
theories/Litexpr_proofs.v
theories/Litexpr_spec.v
theories/Locale.v
theories/Locale_claims.v
theories/Locale_proofs.v
theories/Locale_spec.v
theories/Machine.v
theories/Machine_proofs.v
theories/MixDef_claims.v
theories/MixDef_proofs.v
theories/MixDef_spec.v
theories/Mixed.v
theories/Mixed2_proofs.v
theories/Mixed3_claims.v
theories/Mixed3_proofs.v
theories/Mixed3_spec.v
theories/Mixed_claims.v
theories/Mixed_proofs.v
theories/Mixed_spec.v
theories/Modes.v
theories/Modes_claims.v
theories/Mono_proofs.v
theories/Narrow.v
theories/Narrow_claims.v
theories/Narrow_proofs.v
theories/Narrow_spec.v
theories/Ops.v
theories/Ops_proofs.v
theories/Order_proofs.v
theories/Outcome_claims.v
theories/Outcome_proofs.v
theories/Outcome_spec.v
theories/Overload.v
theories/Overload_claims.v
theories/Overload_proofs.v
theories/Overload_spec.v
theories/Parse.v
theories/Parse2_proofs.v
theories/Parse_claims.v
theories/Parse_proofs.v
theories/Parse_spec.v
theories/Parts.v
theories/Parts_claims.v
theories/Parts_proofs.v
theories/Parts_spec.v
theories/Pow_claims.v
theories/ProgDef_claims.v
theories/ProgDef_proofs.v
theories/ProgDef_spec.v
theories/Program.v
theories/Program2_claims.v
theories/Program2_proofs.v
theories/Program2_spec.v
theories/Program3_claims.v
theories/Program3_proofs.v
theories/Program3_spec.v
theories/Program4_proofs.v
theories/Program5_proofs.v
theories/Program6_proofs.v
theories/Program_claims.v
theories/Program_proofs.v
theories/Program_spec.v
theories/Props_Algo.v
theories/Props_Anymode.v
theories/Props_Arith.v
theories/Props_Blend.v
theories/Props_Cfrac.v
theories/Props_Charstream.v
theories/Props_Chrono.v
theories/Props_Chrono2.v
theories/Props_Chrono3.v
theories/Props_Chrono4.v
theories/Props_Cmp.v
theories/Props_Convert.v
theories/Props_Defined.v
theories/Props_Defined2.v
theories/Props_Dyadic.v
theories/Props_Effects.v
theories/Props_Euclid.v
theories/Props_Except.v
theories/Props_FastIO.v
theories/Props_Flags.v
theories/Props_Float.v
theories/Props_FloatUnsigned.v
theories/Props_Fmath.v
theories/Props_Format.v
theories/Props_Fraction.v
theories/Props_Hash.v
theories/Props_Limits.v
theories/Props_Limits2.v
theories/Props_LitDef.v
theories/Props_LitFloat.v
theories/Props_Literals.v
theories/Props_Litexpr.v
theories/Props_Locale.v
theories/Props_MixDef.v
theories/Props_Mixed.v
theories/Props_Mixed3.v
theories/Props_Modes.v
theories/Props_Narrow.v
theories/Props_Outcome.v
theories/Props_Overload.v
theories/Props_Parse.v
theories/Props_Parts.v
theories/Props_Pow.v
theories/Props_ProgDef.v
theories/Props_Program.v
theories/Props_Program2.v
theories/Props_Program3.v
theories/Props_Raw.v
theories/Props_Redundant.v
theories/Props_Rlaws.v
theories/Props_Rround.v
theories/Props_Small.v
theories/Props_Stack.v
theories/Props_Stream.v
theories/Props_Sums.v
theories/Props_Table.v
theories/Props_Threads.v
theories/Props_Tight.v
theories/Props_Timer.v
theories/Props_Umixed.v
theories/Props_Unary.v
theories/Props_Unsigned.v
theories/Props_Uround.v
theories/Props_Wide.v
theories/Props_Width.v
theories/Props_Wrap.v
theories/Qtrunc_proofs.v
theories/Raw.v
theories/Raw_claims.v
theories/Readme_examples.v
theories/Redundant_claims.v
theories/Redundant_proofs.v
theories/Redundant_spec.v
theories/Reverse_proofs.v
theories/Rlaws2_proofs.v
theories/Rlaws_claims.v
theories/Rlaws_proofs.v
theories/Rlaws_spec.v
theories/Rround_claims.v
theories/Rround_proofs.v
theories/Small_claims.v
theories/Spec.v
theories/Stack_claims.v
theories/Stack_proofs.v
theories/Stack_spec.v
theories/Stream.v
theories/Stream_claims.v
theories/Stream_proofs.v
theories/Stream_spec.v
theories/Sums.v
theories/Sums_claims.v
theories/Sums_proofs.v
theories/Sums_spec.v
theories/Table.v
theories/Table_claims.v
theories/Table_proofs.v
theories/Table_spec.v
theories/Threads.v
theories/Threads_claims.v
theories/Threads_proofs.v
theories/Threads_spec.v
theories/Tight_claims.v
theories/Tight_proofs.v
theories/Tight_spec.v
theories/Timer.v
theories/Timer_claims.v
theories/Timer_proofs.v
theories/Timer_spec.v
theories/Total_proofs.v
theories/Umixed_claims.v
theories/Umixed_proofs.v
theories/Umixed_spec.v
theories/Unary_claims.v
theories/Unary_proofs.v
theories/Unary_spec.v
theories/Unsigned_claims.v
theories/Unsigned_proofs.v
theories/Unsigned_spec.v
theories/Upstream_tests.v
theories/Uround_claims.v
theories/Uround_proofs.v
theories/Uround_spec.v
theories/Value_proofs.v
theories/Wide_claims.v
theories/Wide_proofs.v
theories/Wide_spec.v
theories/Width_claims.v
theories/Width_proofs.v
theories/Width_spec.v
theories/Wrap_claims.v
theories/Wrap_proofs.v
theories/Wrap_spec.v
