{
 "claims": [
  {
   "property": "C01",
   "status": "proved",
   "theorems": [
    "C01_decode_u32_never_panics"
   ],
   "note": ""
  },
  {
   "property": "C02",
   "status": "proved",
   "theorems": [
    "C02_decode_u16_never_panics"
   ],
   "note": ""
  },
  {
   "property": "C03",
   "status": "proved",
   "theorems": [
    "C03_platform_independent"
   ],
   "note": ""
  },
  {
   "property": "C04",
   "status": "proved",
   "theorems": [
    "C04_length_discipline"
   ],
   "note": ""
  },
  {
   "property": "C05",
   "status": "proved",
   "theorems": [
    "C05_base_i_complete"
   ],
   "note": ""
  },
  {
   "property": "C06",
   "status": "proved",
   "theorems": [
    "C06_m_complete"
   ],
   "note": ""
  },
  {
   "property": "C07",
   "status": "proved",
   "theorems": [
    "C07_a_complete"
   ],
   "note": ""
  },
  {
   "property": "C08",
   "status": "partial",
   "theorems": [
    "C08_zicsr_complete_partial",
    "C08_csrrs_of_counter_refuted"
   ],
   "note": "Claim is false for csrrs on a counter CSR with rs1 != x0 (all rs1 for upper-half counters on Rv64): decoded as RD*. Refuted with a witness; everything else, and what these words decode to, is proved."
  },
  {
   "property": "C09",
   "status": "partial",
   "theorems": [
    "C09_fence_complete_partial",
    "C09_fence_i_refuted"
   ],
   "note": "FENCE complete; every FENCE.I word is rejected with UnknownExtension, so the Zifencei half of the claim is refuted."
  },
  {
   "property": "C10",
   "status": "partial",
   "theorems": [
    "C10_zicfiss_zicboz_priv_complete_partial",
    "C10_ssamoswap_d_on_rv32_refuted"
   ],
   "note": "Completeness proved for all rows; \"ssamoswap.d only on Rv64\" is false: accepted on Rv32 (refuted, exact extent proved)."
  },
  {
   "property": "C11",
   "status": "partial",
   "theorems": [
    "C11_c_complete_partial",
    "C11_hint_add_refuted"
   ],
   "note": "Complete except the HINT c.add x0, rs2, which decodes as c.ebreak (refuted, exact extent proved)."
  },
  {
   "property": "C12",
   "status": "proved",
   "theorems": [
    "C12_accepted_u32"
   ],
   "note": ""
  },
  {
   "property": "C13",
   "status": "proved",
   "theorems": [
    "C13_accepted_u16"
   ],
   "note": ""
  },
  {
   "property": "C14",
   "status": "partial",
   "theorems": [
    "C14_accepts_only_legal_u32_partial",
    "C14_accepts_only_legal_u32_refuted"
   ],
   "note": "False; refuted (jalr funct3=1). Proved: lenient32 is exactly the set of illegal words accepted."
  },
  {
   "property": "C15",
   "status": "partial",
   "theorems": [
    "C15_accepts_only_legal_u16_partial",
    "C15_accepts_only_legal_u16_refuted"
   ],
   "note": "False; refuted (c.lwsp x0). Proved: lenient16 is exactly the set of illegal half-words accepted."
  },
  {
   "property": "C16",
   "status": "proved",
   "theorems": [
    "C16_one_meaning"
   ],
   "note": ""
  },
  {
   "property": "C17",
   "status": "proved",
   "theorems": [
    "C17_imm_u32"
   ],
   "note": ""
  },
  {
   "property": "C18",
   "status": "proved",
   "theorems": [
    "C18_imm_u16"
   ],
   "note": ""
  },
  {
   "property": "C19",
   "status": "proved",
   "theorems": [
    "C19_register_ranges"
   ],
   "note": ""
  },
  {
   "property": "C20",
   "status": "proved",
   "theorems": [
    "C20_presence"
   ],
   "note": ""
  },
  {
   "property": "C21",
   "status": "partial",
   "theorems": [
    "C21_gating_partial",
    "C21_gating_refuted"
   ],
   "note": "False for ssamoswap.d on Rv32 and rdcycleh/rdtimeh/rdinstreth on Rv64 (refuted); the exact conditions are proved."
  },
  {
   "property": "C22",
   "status": "proved",
   "theorems": [
    "C22_isas_agree"
   ],
   "note": ""
  },
  {
   "property": "C23",
   "status": "proved",
   "theorems": [
    "C23_errors_u32"
   ],
   "note": ""
  },
  {
   "property": "C24",
   "status": "proved",
   "theorems": [
    "C24_errors_u16"
   ],
   "note": ""
  },
  {
   "property": "C25",
   "status": "partial",
   "theorems": [
    "C25_length_errors_partial",
    "C25_length_errors_refuted"
   ],
   "note": "False: the error is always InvalidOpcode (refuted); rejection and the exact error proved."
  },
  {
   "property": "C26",
   "status": "proved",
   "theorems": [
    "C26_decode_agrees_with_parse"
   ],
   "note": ""
  },
  {
   "property": "C27",
   "status": "partial",
   "theorems": [
    "C27_foreign_opcode_partial",
    "C27_foreign_opcode_refuted"
   ],
   "note": "False for Zicfiss opcodes: panics (refuted); the exact behaviour for every opcode proved."
  },
  {
   "property": "C28",
   "status": "proved",
   "theorems": [
    "C28_try_from_agrees"
   ],
   "note": ""
  },
  {
   "property": "C29",
   "status": "partial",
   "theorems": [
    "C29_try_from_never_panics_partial",
    "C29_try_from_never_panics_refuted"
   ],
   "note": "False: values of more than 16 bits not ending in 11, and of more than 32 bits, panic (refuted); exact condition proved."
  },
  {
   "property": "C30",
   "status": "partial",
   "theorems": [
    "C30_display_never_panics_partial",
    "C30_display_never_panics_refuted"
   ],
   "note": "False for sfence.vma, sspopchk, c.sspush, c.sspopchk (refuted for each); exact condition proved."
  },
  {
   "property": "C31",
   "status": "partial",
   "theorems": [
    "C31_documented_syntax_partial",
    "C31_documented_syntax_refuted"
   ],
   "note": "False e.g. for stores, branches (refuted); as_documented is exactly the set of conforming opcodes, and what is printed for all opcodes is proved."
  },
  {
   "property": "C32",
   "status": "partial",
   "theorems": [
    "C32_mnemonics_partial",
    "C32_mnemonics_refuted"
   ],
   "note": "False for mulhsu (\"mulhsu,\") and fence (\"fence.i\") (refuted); injectivity and all other mnemonics proved."
  },
  {
   "property": "C33",
   "status": "partial",
   "theorems": [
    "C33_text_identifies_partial",
    "C33_text_identifies_refuted"
   ],
   "note": "False for shifts by immediate, AMOs, fence, sspush, c.nop (refuted); exact set of opcodes proved."
  },
  {
   "property": "C34",
   "status": "partial",
   "theorems": [
    "C34_operands_readable_partial",
    "C34_operands_readable_refuted"
   ],
   "note": "False for c.beqz/c.bnez/c.srli/c.srai/c.andi (register as number) and c.addi4spn (hex without 0x) (refuted); all others proved."
  },
  {
   "property": "C35",
   "status": "partial",
   "theorems": [
    "C35_reassemble_partial",
    "C35_aq_rl_lost_refuted",
    "C35_csrrs_of_counter_refuted"
   ],
   "note": "Proved for every decoded word legal as the decoded opcode, except ssamoswap.w/.d, where aq and rl (and nothing else) are lost (refuted). A csrrs of a counter is decoded as a counter read, losing rs1 (refuted)."
  },
  {
   "property": "C36",
   "status": "partial",
   "theorems": [
    "C36_assemble_partial",
    "C36_decoded_is_valid",
    "C36_csrrs_of_counter_refuted",
    "C36_c_add_hint_refuted"
   ],
   "note": "Proved for all valid instructions but csrrs of a counter CSR and c.add x0, rs2 (both refuted)."
  },
  {
   "property": "C37",
   "status": "partial",
   "theorems": [
    "C37_operand_bits_partial",
    "C37_aq_rl_refuted"
   ],
   "note": "The equivalence is proved for all accepted words. That legal words of one opcode differ in operand bits only is false for aq/rl of ssamoswap (refuted) and proved for all other opcodes."
  },
  {
   "property": "C38",
   "status": "partial",
   "theorems": [
    "C38_expansion_partial",
    "C38_c_add_hint_refuted"
   ],
   "note": "Proved for all half-words legal as the decoded opcode; the HINT c.add x0, rs2 is decoded as c.ebreak (refuted)."
  },
  {
   "property": "C39",
   "status": "proved",
   "theorems": [
    "C39_equality"
   ],
   "note": ""
  },
  {
   "property": "C40",
   "status": "proved",
   "theorems": [
    "C40_parse_methods"
   ],
   "note": ""
  },
  {
   "property": "C41",
   "status": "proved",
   "theorems": [
    "C41_slice"
   ],
   "note": ""
  },
  {
   "property": "C42",
   "status": "proved",
   "theorems": [
    "C42_to_signed"
   ],
   "note": ""
  },
  {
   "property": "C43",
   "status": "proved",
   "theorems": [
    "C43_set"
   ],
   "note": ""
  },
  {
   "property": "C44",
   "status": "proved",
   "theorems": [
    "C44_extension"
   ],
   "note": ""
  },
  {
   "property": "C45",
   "status": "proved",
   "theorems": [
    "C45_display_of_any_value"
   ],
   "note": ""
  },
  {
   "property": "C46",
   "status": "proved",
   "theorems": [
    "C46_debug"
   ],
   "note": ""
  },
  {
   "property": "C47",
   "status": "proved",
   "theorems": [
    "C47_stream"
   ],
   "note": ""
  },
  {
   "property": "C48",
   "status": "proved",
   "theorems": [
    "C48_each_operand_has_its_bits"
   ],
   "note": ""
  },
  {
   "property": "C49",
   "status": "proved",
   "theorems": [
    "C49_unnoticed_bits"
   ],
   "note": ""
  },
  {
   "property": "C50",
   "status": "proved",
   "theorems": [
    "C50_siblings"
   ],
   "note": ""
  },
  {
   "property": "C51",
   "status": "proved",
   "theorems": [
    "C51_everything_returned"
   ],
   "note": ""
  },
  {
   "property": "C52",
   "status": "partial",
   "theorems": [
    "C52_tag_names_the_operands_partial",
    "C52_tag_names_the_operands_refuted"
   ],
   "note": "False for the pairs of opcode and operand in lacking (5) and unnamed (54); refuted, and the two lists are proved to be exactly the exceptions."
  },
  {
   "property": "C53",
   "status": "proved",
   "theorems": [
    "C53_where_the_bits_come_from"
   ],
   "note": ""
  },
  {
   "property": "C54",
   "status": "proved",
   "theorems": [
    "C54_any_sink",
    "C54_stored",
    "C54_buffers"
   ],
   "note": ""
  },
  {
   "property": "C55",
   "status": "partial",
   "theorems": [
    "C55_recognised",
    "C55_standard_partial",
    "C55_standard_refuted"
   ],
   "note": "The exact characterisation with the wider entries is proved. With the entries of the standard alone it is false for csrrs on a counter CSR and c.add x0, rs2 (refuted); these are proved to be the only exceptions."
  },
  {
   "property": "C56",
   "status": "proved",
   "theorems": [
    "C56_debug_any_formatter",
    "C56_debug_default",
    "C56_debug_identifies"
   ],
   "note": ""
  },
  {
   "property": "C57",
   "status": "partial",
   "theorems": [
    "C57_set_follows_its_example_partial",
    "C57_set_follows_its_example_refuted",
    "C57_slice_follows_its_example_refuted"
   ],
   "note": "Both documented examples are false (refuted). Proved: set is the inverse of what its example shows, and equal to it exactly for masks that are their own inverse."
  },
  {
   "property": "C58",
   "status": "partial",
   "theorems": [
    "C58_error_names_the_field_partial",
    "C58_error_names_the_field_u16_partial",
    "C58_error_names_the_field_refuted",
    "C58_another_value_is_right_refuted",
    "C58_error_names_the_field_u16_refuted"
   ],
   "note": "Both halves have exceptions (refuted); they are proved to be exactly misplaced, incurable, misplaced16."
  },
  {
   "property": "C59",
   "status": "partial",
   "theorems": [
    "C59_old_opcode_table_partial",
    "C59_old_opcode_table_refuted"
   ],
   "note": "Formats agree for all; extension differs for fence, text for fence and mulhsu (refuted); these are proved to be all differences."
  },
  {
   "property": "C60",
   "status": "proved",
   "theorems": [
    "C60_how_many"
   ],
   "note": ""
  },
  {
   "property": "C61",
   "status": "proved",
   "theorems": [
    "C61_source_is_model"
   ],
   "note": ""
  },
  {
   "property": "C62",
   "status": "proved",
   "theorems": [
    "C62_source_decodes"
   ],
   "note": ""
  },
  {
   "property": "C63",
   "status": "proved",
   "theorems": [
    "C63_source_helpers"
   ],
   "note": ""
  },
  {
   "property": "C64",
   "status": "proved",
   "theorems": [
    "C64_source_displays"
   ],
   "note": ""
  },
  {
   "property": "C65",
   "status": "proved",
   "theorems": [
    "C65_tests_pass"
   ],
   "note": ""
  },
  {
   "property": "C66",
   "status": "proved",
   "theorems": [
    "C66_source_types"
   ],
   "note": ""
  },
  {
   "property": "C67",
   "status": "proved",
   "theorems": [
    "C67_source_types_and_effects"
   ],
   "note": ""
  },
  {
   "property": "C68",
   "status": "proved",
   "theorems": [
    "C68_documentation_runs"
   ],
   "note": ""
  },
  {
   "property": "C69",
   "status": "proved",
   "theorems": [
    "C69_uncompiled_text"
   ],
   "note": ""
  },
  {
   "property": "C70",
   "status": "partial",
   "theorems": [
    "C70_documented_tags_partial",
    "C70_documented_tags_refuted"
   ],
   "note": "Two examples are under the wrong tag and 13 are not followed by Display (both refuted); these are proved to be all. The operands C52 takes a tag to name are proved to be those of its examples."
  },
  {
   "property": "C71",
   "status": "proved",
   "theorems": [
    "C71_one_reading",
    "C71_unambiguous",
    "C71_lexer_and_parser"
   ],
   "note": ""
  },
  {
   "property": "C72",
   "status": "proved",
   "theorems": [
    "C72_one_program",
    "C72_linker"
   ],
   "note": ""
  },
  {
   "property": "C73",
   "status": "proved",
   "theorems": [
    "C73_one_meaning",
    "C73_evaluator",
    "C73_source_means",
    "C73_decodes"
   ],
   "note": ""
  },
  {
   "property": "C74",
   "status": "proved",
   "theorems": [
    "C74_branches",
    "C74_unreached",
    "C74_reached",
    "C74_exactly"
   ],
   "note": ""
  },
  {
   "property": "C75",
   "status": "proved",
   "theorems": [
    "C75_lists",
    "C75_dead",
    "C75_exactly"
   ],
   "note": ""
  },
  {
   "property": "C76",
   "status": "proved",
   "theorems": [
    "C76_list",
    "C76_exactly",
    "C76_not_entered",
    "C76_blind"
   ],
   "note": ""
  },
  {
   "property": "C77",
   "status": "proved",
   "theorems": [
    "C77_unreached",
    "C77_dead"
   ],
   "note": ""
  },
  {
   "property": "C78",
   "status": "proved",
   "theorems": [
    "C78_public",
    "C78_no_more",
    "C78_types"
   ],
   "note": ""
  }
 ]
}