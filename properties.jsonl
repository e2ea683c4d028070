{"id": "C01", "title": "Decoding a u32 never panics", "statement": "u32::decode returns a Result (Ok or Err) and never panics: no assertion, unwrap, arithmetic overflow, over-long shift or unreachable!() is hit.", "quantifier": "every 32-bit word, both ISAs (Rv32, Rv64), every build profile (overflow checks on/off) and pointer width (16/32/64)", "why_tests_cant": "There are 2^32 words per ISA; the repo tests ~40 of them. Absence of panics is a statement about all of them and about both overflow-check settings.", "anchors": ["src/decode/inst_32.rs: Decode for u32", "src/decode.rs: to_signed_nbit", "src/decode/*_extension.rs: bit_32"]}
{"id": "C02", "title": "Decoding a u16 never panics", "statement": "u16::decode returns a Result and never panics.", "quantifier": "every 16-bit half-word, both ISAs, every build profile and pointer width", "why_tests_cant": "Needs all 65536 half-words under both profiles; the suite has 14 half-words and runs in one profile.", "anchors": ["src/decode/inst_16.rs: Decode for u16", "src/decode/c_extension.rs", "src/decode/zicfiss_extension.rs: bit_16"]}
{"id": "C03", "title": "Debug and release builds, and all pointer widths, decode identically", "statement": "For a given word and ISA the result of decode (u16 and u32) is the same with and without overflow checks and for every usize width.", "quantifier": "every word / half-word, ISA and every pair of platforms", "why_tests_cant": "A test run observes a single build configuration on one machine.", "anchors": ["src/decode/inst_32.rs: slice, set", "src/decode/inst_16.rs: slice, set", "src/decode.rs: to_signed_nbit"]}
{"id": "C04", "title": "Length discipline", "statement": "A u32 is accepted only if its two low bits are 11 and a u16 only if they are not 11; hence no instruction-stream parcel is accepted under both widths.", "quantifier": "every u32/u16 and ISA", "why_tests_cant": "Universal over all words; a single stray acceptance desynchronises an instruction stream.", "anchors": ["src/decode/inst_32.rs: parse_opcode", "src/decode/c_extension.rs: parse_opcode"]}
{"id": "C05", "title": "RV32I/RV64I completeness", "statement": "Every word that the RISC-V manual assigns to a base-integer instruction (ecall/ebreak, branches, loads, stores, ALU, shifts with the ISA-dependent shamt width, *W forms) decodes to exactly that opcode with the architected rd/rs1/rs2/immediate, the right format tag and is_compressed = false; on Rv32 the RV64-only ones are not accepted.", "quantifier": "every legal encoding (all register numbers, all immediates), both ISAs", "why_tests_cant": "Each instruction has up to 2^25 encodings; tests pick one each for a dozen instructions.", "anchors": ["src/decode/base_i.rs: parse_opcode, parse_rd, parse_rs1, parse_rs2, parse_imm", "src/instruction/base_i.rs: get_format"]}
{"id": "C06", "title": "M extension completeness", "statement": "Every legal MUL*/DIV*/REM* word decodes to that opcode with the architected rd, rs1, rs2, no immediate; the *W forms only on Rv64.", "quantifier": "every legal encoding, both ISAs", "why_tests_cant": "2^15 register triples per opcode.", "anchors": ["src/decode/m_extension.rs", "src/decode/inst_32.rs: parse_extension"]}
{"id": "C07", "title": "A extension completeness", "statement": "Every legal LR/SC/AMO word decodes to that opcode with rd, rs1, (rs2 except LR) and imm = the aq/rl bits; the .D forms only on Rv64.", "quantifier": "every legal encoding, both ISAs", "why_tests_cant": "2^17 encodings per opcode.", "anchors": ["src/decode/a_extension.rs", "src/decode/inst_32.rs: parse_extension"]}
{"id": "C08", "title": "Zicsr / Zicntr completeness", "statement": "Every legal CSR-access word decodes to its CSR opcode with rd, rs1 or 5-bit uimm, and the 12-bit CSR number in rs2; the counter-read pseudo-instructions (csrrs rd, counter, x0) decode to the RD* opcode with rd; and a csrrs that is not such a read (rs1 != x0) stays a CSRRS.", "quantifier": "every legal encoding, both ISAs", "why_tests_cant": "6 opcodes x 2^22 encodings; the special casing of six CSR numbers is a corner tests miss.", "anchors": ["src/decode/zicsr_extension.rs", "src/decode/zicntr_extension.rs", "src/decode/inst_32.rs: parse_extension"]}
{"id": "C09", "title": "Fence instructions", "statement": "Every FENCE word is decoded with rd, rs1 and fm/pred/succ in imm, and every FENCE.I word of the advertised Zifencei extension is decoded as fence.i (and not confused with FENCE).", "quantifier": "every legal encoding, both ISAs", "why_tests_cant": "2^22 encodings of each; the suite only has one FENCE.", "anchors": ["src/decode/zifencei_extension.rs", "src/decode/inst_32.rs: parse_extension", "src/instruction/zifencei_extension.rs"]}
{"id": "C10", "title": "Zicfiss / Zicboz / privileged completeness", "statement": "Every legal sspush, sspopchk, ssrdp, ssamoswap.w/.d, cbo.zero, sret, mret, wfi and sfence.vma word decodes to that opcode with its operands; ssamoswap.d only on Rv64.", "quantifier": "every legal encoding, both ISAs", "why_tests_cant": "Encodings range over registers and aq/rl bits.", "anchors": ["src/decode/zicfiss_extension.rs", "src/decode/zicboz_extension.rs", "src/decode/priv_extension.rs"]}
{"id": "C11", "title": "C extension completeness", "statement": "Every half-word that the RVC tables assign (including HINTs) to a supported compressed instruction decodes to that opcode with the architected registers and immediate, format tag and is_compressed = true; RV64C-only ones only on Rv64, C.JAL only on Rv32.", "quantifier": "every legal RVC half-word, both ISAs", "why_tests_cant": "Scrambled immediates and overlapping encodings: every half-word matters.", "anchors": ["src/decode/c_extension.rs", "src/instruction/c_extension.rs: get_format"]}
{"id": "C12", "title": "Exact acceptance set of u32::decode", "statement": "u32::decode returns Ok(i) if and only if the word matches a row of an explicit encoding table available on the ISA, and then i is exactly the row's opcode, format and operands read from the word.", "quantifier": "every 32-bit word, both ISAs (Rv32, Rv64), every build profile (overflow checks on/off) and pointer width (16/32/64)", "why_tests_cant": "An iff over 2^32 words and two ISAs.", "anchors": ["src/decode/inst_32.rs", "src/decode/*.rs: bit_32"]}
{"id": "C13", "title": "Exact acceptance set of u16::decode", "statement": "u16::decode returns Ok(i) iff the half-word matches a row of an explicit table available on the ISA, and i is exactly that row's reading of the half-word.", "quantifier": "every 16-bit half-word, both ISAs, every build profile and pointer width", "why_tests_cant": "An iff over all half-words and both ISAs.", "anchors": ["src/decode/inst_16.rs", "src/decode/c_extension.rs"]}
{"id": "C14", "title": "u32::decode accepts only legal encodings", "statement": "If u32::decode returns Ok(i) then the word is an encoding the RISC-V manual assigns to that instruction on that ISA.", "quantifier": "every 32-bit word, both ISAs (Rv32, Rv64), every build profile (overflow checks on/off) and pointer width (16/32/64)", "why_tests_cant": "Reserved encodings are the complement of what tests exercise.", "anchors": ["src/decode/base_i.rs: parse_opcode", "src/decode/zicfiss_extension.rs", "src/decode/zicntr_extension.rs", "src/decode/priv_extension.rs"]}
{"id": "C15", "title": "u16::decode accepts only legal encodings", "statement": "If u16::decode returns Ok(i) then the half-word is an encoding the RVC tables assign to that instruction on that ISA (not a reserved one).", "quantifier": "every 16-bit half-word, both ISAs, every build profile and pointer width", "why_tests_cant": "Reserved encodings are spread over the half-word space.", "anchors": ["src/decode/c_extension.rs: quadrant0, quadrant1, quadrant2"]}
{"id": "C16", "title": "No word has two meanings", "statement": "At most one row of the encoding tables applies to a given word and ISA, and none applies to a word that is rejected: the acceptance rows and the error rows partition the word space.", "quantifier": "every word/half-word and ISA", "why_tests_cant": "Disjointness of ~150 masks over the whole space.", "anchors": ["src/decode/inst_32.rs: parse_extension, parse_opcode", "src/decode/inst_16.rs"]}
{"id": "C17", "title": "32-bit immediates", "statement": "The imm of an accepted u32 is the two's-complement (or unsigned) value of the ISA's immediate bits: within the format's range, even for branches and jumps, shamt < 32 on Rv32 / W shifts and < 64 on Rv64, upper immediates in 0..2^20, aq/rl in 0..3, CSR uimm in 0..31, and it depends only on the format's immediate bits.", "quantifier": "every 32-bit word, both ISAs (Rv32, Rv64), every build profile (overflow checks on/off) and pointer width (16/32/64)", "why_tests_cant": "Sign extension and bit scrambling must be right for each of up to 2^20 immediates.", "anchors": ["src/decode/base_i.rs: parse_imm", "src/decode.rs: to_signed_nbit", "src/decode/inst_32.rs: set"]}
{"id": "C18", "title": "16-bit immediates", "statement": "The imm of an accepted u16 is the value of the RVC immediate bits, within its range and scaled (multiple of 2 for jumps/branches, 4 for word, 8 for doubleword offsets, 16 for addi16sp, 4096 for c.lui).", "quantifier": "every 16-bit half-word, both ISAs, every build profile and pointer width", "why_tests_cant": "Scrambled and scaled immediates; every half-word matters.", "anchors": ["src/decode/c_extension.rs: parse_imm", "src/decode/inst_16.rs: set, slice"]}
{"id": "C19", "title": "Register operands are in range", "statement": "Every rd and rs1 in a decoded instruction, and every rs2 except for CSR instructions, is < 32 (so register-file indexing and name printing are safe); the CSR number is < 4096; three-bit compressed register fields give 8..15.", "quantifier": "every accepted word/half-word, both ISAs", "why_tests_cant": "Downstream code indexes arrays with these values; must hold for all accepted inputs.", "anchors": ["src/decode/*.rs: parse_rd, parse_rs1, parse_rs2", "src/instruction.rs: reg2str"]}
{"id": "C20", "title": "Operand presence is a function of the opcode", "statement": "Whether rd, rs1, rs2, imm are Some depends only on the decoded opcode, never on operand bits or ISA; so the unwraps a consumer writes per opcode are safe.", "quantifier": "every pair of accepted inputs with the same opcode", "why_tests_cant": "Relates two arbitrary executions.", "anchors": ["src/decode/*.rs: parse_rd, parse_rs1, parse_rs2, parse_imm"]}
{"id": "C21", "title": "RV64-only gating", "statement": "decode returns OnlyRv64Inst iff the ISA is Rv32 and the same word is accepted on Rv64 as one of the RV64-only opcodes; and no RV64-only opcode is ever returned on Rv32, no RV32-only opcode on Rv64.", "quantifier": "every word/half-word", "why_tests_cant": "Quantifies over all words and relates the two ISAs.", "anchors": ["src/decode.rs: only_rv64", "src/decode/*.rs: parse_opcode"]}
{"id": "C22", "title": "RV32 and RV64 agree on common instructions", "statement": "If a word is accepted on Rv32 then Rv64 accepts it with the identical Instruction, except half-words in the C.JAL/C.ADDIW slot; if it is accepted on Rv64 but not Rv32 the error is OnlyRv64Inst, or it is a 64-bit shift with shamt >= 32.", "quantifier": "every word/half-word", "why_tests_cant": "Relational property over all inputs.", "anchors": ["src/decode/base_i.rs: parse_opcode, parse_imm", "src/decode/c_extension.rs: quadrant1"]}
{"id": "C23", "title": "Errors of u32::decode", "statement": "For every rejected word the error variant is exactly the one given by an explicit table (UnknownExtension, InvalidOpcode, InvalidFunct3/5/6/7, OnlyRv64Inst).", "quantifier": "every 32-bit word, both ISAs (Rv32, Rv64), every build profile (overflow checks on/off) and pointer width (16/32/64)", "why_tests_cant": "Callers branch on the variant (e.g. to raise illegal-instruction or try another decoder) for arbitrary garbage input.", "anchors": ["src/decode/inst_32.rs: parse_extension", "src/decode/*.rs: parse_opcode", "src/decode.rs: DecodingError"]}
{"id": "C24", "title": "Errors of u16::decode", "statement": "For every rejected half-word the error is exactly: IllegalInstruction iff the half-word is zero, OnlyRv64Inst for RV64C opcodes on Rv32, InvalidOpcode otherwise.", "quantifier": "every 16-bit half-word, both ISAs, every build profile and pointer width", "why_tests_cant": "All half-words.", "anchors": ["src/decode/inst_16.rs: decode", "src/decode/c_extension.rs"]}
{"id": "C25", "title": "Length-mismatch errors", "statement": "A u16 whose low bits say it is (part of) a 32-bit instruction is rejected with the documented length-mismatch error, likewise a u32 whose low half is a compressed instruction.", "quantifier": "every word/half-word", "why_tests_cant": "The documented meaning of two error variants over all inputs.", "anchors": ["src/decode.rs: DecodingError::Not16BitInst, Not32BitInst"]}
{"id": "C26", "title": "decode agrees with the individual parse methods", "statement": "decode(isa) is Ok(i) iff parse_opcode(isa) is Ok(i.opc), and then parse_rd/rs1/rs2/imm on i.opc give i's fields, i.inst_format is i.opc.get_format() and i.is_compressed says which width was decoded; otherwise decode and parse_opcode report the same error, except that for the u16 value 0 decode reports IllegalInstruction where parse_opcode reports InvalidOpcode.", "quantifier": "every word/half-word, ISA", "why_tests_cant": "API-level consistency between six public methods over all inputs.", "anchors": ["src/decode.rs: Decode", "src/decode/inst_32.rs", "src/decode/inst_16.rs"]}
{"id": "C27", "title": "parse_rd/rs1/rs2/imm with a foreign opcode", "statement": "Called with an opcode of the other width these public methods return the documented error and never panic.", "quantifier": "every word/half-word and every OpcodeKind value (including ones the caller built)", "why_tests_cant": "The caller may pass any of ~150 opcodes with any word.", "anchors": ["src/decode/inst_32.rs: parse_rd", "src/decode/inst_16.rs: parse_rd", "src/decode/zicfiss_extension.rs"]}
{"id": "C28", "title": "TryFrom<usize> agrees with decode", "statement": "Instruction::try_from(x) equals the Rv64 u32 decoding when x ends in 11 and fits in 32 bits, and the Rv64 u16 decoding when it does not end in 11 and fits in 16 bits.", "quantifier": "every usize value on 16-, 32- and 64-bit platforms", "why_tests_cant": "2^64 inputs.", "anchors": ["src/lib.rs: TryFrom<usize> for Instruction"]}
{"id": "C29", "title": "TryFrom<usize> never panics", "statement": "Instruction::try_from is a fallible conversion: for every usize it returns Ok or Err rather than panicking.", "quantifier": "every usize value", "why_tests_cant": "2^64 inputs.", "anchors": ["src/lib.rs: TryFrom<usize> for Instruction"]}
{"id": "C30", "title": "Displaying a decoded instruction never panics", "statement": "For every instruction returned by decode, formatting it with {} succeeds.", "quantifier": "every accepted word/half-word, both ISAs", "why_tests_cant": "Formatting unwraps operands per format; must hold for every opcode and operand combination.", "anchors": ["src/instruction.rs: Display for Instruction, reg2str", "src/instruction/*.rs: get_format"]}
{"id": "C31", "title": "Displayed syntax follows the documented format", "statement": "The text printed for a decoded instruction is its mnemonic followed by the operands in the order and syntax documented for its InstFormat (e.g. `sw rs2, imm(rs1)`, `beq rs1, rs2, imm`, `c.beqz rs1, imm`).", "quantifier": "every accepted word/half-word", "why_tests_cant": "Every operand combination of every opcode.", "anchors": ["src/instruction.rs: Display for Instruction, InstFormat docs"]}
{"id": "C32", "title": "Mnemonics", "statement": "The opcode's Display text is the manual's mnemonic (in lower case, but a capital C before the dot of compressed ones), and two different opcodes never print the same mnemonic.", "quantifier": "every OpcodeKind / every pair", "why_tests_cant": "Pairs of ~150 opcodes.", "anchors": ["src/instruction/*.rs: Display"]}
{"id": "C33", "title": "Displayed text identifies the instruction", "statement": "Two decoded instructions of the same width that differ print different text (the disassembly loses no operand).", "quantifier": "every pair of accepted words", "why_tests_cant": "Injectivity: a relation over pairs of inputs.", "anchors": ["src/instruction.rs: Display for Instruction"]}
{"id": "C34", "title": "Printed numbers and registers can be read back", "statement": "Register operands are printed by their ABI name (a bijection on 0..31), immediates in decimal or two's complement hexadecimal that parse back to the same value.", "quantifier": "every register number, every i32 / usize value", "why_tests_cant": "All 2^32 immediates.", "anchors": ["src/instruction.rs: reg2str, Display for Instruction"]}
{"id": "C35", "title": "Decoding loses no architected bit", "statement": "From a decoded legal instruction the original word can be reassembled by the manual's encoding (no operand or function bit is lost).", "quantifier": "every legal word/half-word, both ISAs", "why_tests_cant": "Round trip over all words.", "anchors": ["src/decode/*.rs"]}
{"id": "C36", "title": "Decode inverts the assembler", "statement": "For every opcode and every in-range operand choice, decoding the word the manual's encoding assigns to it gives back exactly that opcode and those operands.", "quantifier": "every opcode and operand tuple, both ISAs", "why_tests_cant": "Round trip over all operand values.", "anchors": ["src/decode/*.rs"]}
{"id": "C37", "title": "Decoded value depends on exactly the architected bits", "statement": "Two accepted words decode to equal instructions iff they have the same opcode and agree on every operand bit of that opcode's layout: no operand bit is ignored and no other bit leaks in.", "quantifier": "every pair of accepted words", "why_tests_cant": "Relational property over pairs of words.", "anchors": ["src/decode/*.rs: parse_rd, parse_rs1, parse_rs2, parse_imm"]}
{"id": "C38", "title": "Compressed instructions expand faithfully", "statement": "The decoded fields of a legal compressed instruction determine the 32-bit base instruction the manual says it expands to: assembling that expansion and decoding it as u32 yields that base opcode with the corresponding registers and immediate.", "quantifier": "every legal RVC half-word, both ISAs", "why_tests_cant": "An emulator executes compressed instructions through their expansion; must hold for every half-word.", "anchors": ["src/decode/c_extension.rs", "src/decode/base_i.rs"]}
{"id": "C39", "title": "Instruction equality", "statement": "== on Instruction (and OpcodeKind, DecodingError) holds exactly when all public fields are equal; so it is an equivalence and decoded results can be compared or de-duplicated.", "quantifier": "every pair of Instruction values", "why_tests_cant": "Pairs over unbounded field values.", "anchors": ["src/instruction.rs: derive(PartialEq)"]}
{"id": "C40", "title": "Operand methods on any word", "statement": "parse_rd/rs1/rs2/imm with an opcode of the word's width return exactly the fields that opcode's encoding prescribes, for every word, including words that are not encodings of the opcode; get_format agrees with the same table.", "quantifier": "every word, every opcode of its width, both ISAs, with and without overflow checks", "why_tests_cant": "145 opcodes times 2^32 words; the tests call these only on encodings of the opcode.", "anchors": ["src/decode/inst_32.rs: parse_rd/parse_rs1/parse_rs2/parse_imm", "src/decode/inst_16.rs: parse_rd/parse_rs1/parse_rs2/parse_imm"]}
{"id": "C41", "title": "slice contract", "statement": "slice(end, start) returns exactly bits end..start, right-aligned, whenever start is inside the word and fewer than width bits are taken; end < start fails the assertion; with overflow checks everything else panics; without them start wraps at the width of the word and the bits from there are returned, however many are asked for (2^32 bits count as none).", "quantifier": "every word, every end and start of type u32, both widths", "why_tests_cant": "2^96 argument triples.", "anchors": ["src/decode/inst_32.rs:124-127", "src/decode/inst_16.rs:77-80"]}
{"id": "C42", "title": "to_signed_nbit contract", "statement": "to_signed_nbit(v, n) is the two's complement reading of the low n bits of v for 1 <= n <= 30; any other n panics with overflow checks; without them n = 31 is also right, n >= 32 returns v and n = 0 returns 0.", "quantifier": "every i32 v, every u32 n", "why_tests_cant": "2^64 argument pairs.", "anchors": ["src/decode.rs:157-"]}
{"id": "C43", "title": "set contract", "statement": "set(mask) puts bit j of the word at position mask[len-1-j] and zeros elsewhere, for all masks of at most 32 positions below 32; longer masks and positions of 32 and more panic with overflow checks; without them positions and bit numbers are taken modulo 32.", "quantifier": "every word, every mask (repeated positions included)", "why_tests_cant": "Unboundedly many masks.", "anchors": ["src/decode/inst_32.rs:174-", "src/decode/inst_16.rs:89-"]}
{"id": "C44", "title": "Extension choice", "statement": "parse_extension is total, and its result for every 32-bit word is given by bit patterns (which extension, or UnknownExtension, its only error); if decode succeeds it chose the extension the decoded opcode belongs to; decode reports UnknownExtension exactly when parse_extension does; a 32-bit word is never assigned to C, a half-word only to C or (c.sspush x1, c.sspopchk x5) Zicfiss.", "quantifier": "every word of either width", "why_tests_cant": "2^32 words.", "anchors": ["src/decode/inst_32.rs:129-", "src/decode/inst_16.rs:82-"]}
{"id": "C45", "title": "Display of any Instruction value", "statement": "For every Instruction value (its fields are public), the text is the one its format and opcode prescribe, showing the operands; formatting panics exactly if the format/opcode pair has no text, a shown operand is missing, or a shown register is 32 or more; unreachable!() only in the first case.", "quantifier": "every Instruction value, decoded or not", "why_tests_cant": "Unbounded field values, 25 formats x 145 opcodes.", "anchors": ["src/instruction.rs:46-264"]}
{"id": "C46", "title": "Debug text identifies the result", "statement": "The {:?} and {:#?} texts of decode results and of instructions are injective: distinct results have distinct texts. Both texts are given completely: Ok(..)/Err(..), the name of the error, the extension and the mnemonic in capitals, every field by name and in order, numbers in decimal, the format's name; {:#?} has one field per line, indented by four blanks per level, with trailing commas.", "quantifier": "every pair of Instruction values and of decode results", "why_tests_cant": "Pairs of unbounded values.", "anchors": ["src/instruction.rs:28-44", "src/decode.rs:46-68", "src/decode.rs:80"]}
{"id": "C47", "title": "Streams of instructions", "statement": "A program of valid instructions (other than those of C36's exceptions) laid out in 16-bit parcels, walked by the low two bits of each parcel, is decoded to exactly that program, by decode and (Rv64) by TryFrom<usize>; the code determines the program; on any parcels no step of the walk panics.", "quantifier": "every program (list of valid instructions), every parcel list, both ISAs", "why_tests_cant": "Programs of any length; tests decode single words.", "anchors": ["src/lib.rs:75-89", "src/decode/inst_32.rs:22-", "src/decode/inst_16.rs:16-"]}
{"id": "C48", "title": "Each operand has its own bits", "statement": "Of two words decoded as the same opcode, rd (rs1, rs2, imm) is equal in both iff the words agree on the bits that the opcode's layout gives to rd (rs1, rs2, imm): no operand is affected by another operand's bits or by any other bit.", "quantifier": "every pair of accepted words (u32 and u16) of one opcode, both ISAs, each of the four operands", "why_tests_cant": "Pairs of words: 2^64 combinations per ISA.", "anchors": ["src/decode/base_i.rs", "src/decode/c_extension.rs", "src/decode/inst_32.rs", "src/decode/inst_16.rs"]}
{"id": "C49", "title": "Which single-bit changes go unnoticed", "statement": "Inverting one bit of a legal encoding always changes the decoding result (another instruction or an error), except for exactly these bits: funct3 of jalr, funct7 bits 31..26 of sll/slt/sltu/xor/or/and, funct7 of slliw, bit 30 of sllw, rd and rs1 fields of ecall/ebreak/sspush, rd field of sspopchk/sfence.vma, rs2 field of lr, rs1 field of the counter reads, aq/rl of ssamoswap, and bits 6..2 of c.ebreak.", "quantifier": "every legal word and half-word, every bit position, both ISAs", "why_tests_cant": "2^32 words x 32 bit positions.", "anchors": ["src/decode/base_i.rs", "src/decode/a_extension.rs", "src/decode/zicntr_extension.rs", "src/decode/zicfiss_extension.rs", "src/decode/priv_extension.rs", "src/decode/c_extension.rs"]}
{"id": "C50", "title": "Related instructions decode alike", "statement": "Opcodes that the manual puts one bit apart (word/doubleword, W form/full form, signed/unsigned, negated condition, logical/arithmetic, add/sub, min/max, byte/half) are decoded with identical operands: inverting that bit of a legal word gives the other opcode with the same rd, rs1, rs2, imm, and the same format tag except between lr.w and lr.d.", "quantifier": "every pair of related opcodes, every legal word of either, both ISAs where the other opcode exists", "why_tests_cant": "Relates two runs on all words of each opcode.", "anchors": ["src/decode/base_i.rs", "src/decode/m_extension.rs", "src/decode/a_extension.rs", "src/instruction/a_extension.rs:66-90"]}
{"id": "C51", "title": "Exactly what decode can return", "statement": "Every opcode of the public enums is returned for some word of its width on every ISA, except RV64-only base, M, A and C opcodes on Rv32 and c.jal on Rv64, and never for a word of the other width; the errors and the format tags that are ever returned are exactly the listed ones (Not16BitInst and Not32BitInst never).", "quantifier": "all words, both widths and ISAs; every opcode, error and format value", "why_tests_cant": "Non-occurrence over all words cannot be tested.", "anchors": ["src/decode.rs:46-68", "src/instruction.rs:269-461", "src/decode/inst_32.rs", "src/decode/inst_16.rs"]}
{"id": "C52", "title": "The format tag names the operands", "statement": "A decoded instruction has the operands that the documentation of its InstFormat names, and no others. False for the listed pairs of opcode and operand: named but absent (rs2 of lr.d and sspopchk, rd of sfence.vma, c.jr, c.jalr) and present but unnamed (shift amounts, aq/rl, fence's fields, rs1 of two-operand compressed instructions, ...). These are all.", "quantifier": "every decoded instruction and each of its four operand slots", "why_tests_cant": "The absence of further exceptions is a statement about all opcodes and all words.", "anchors": ["src/instruction.rs:266-429", "src/instruction/*.rs get_format", "src/decode.rs parse_rd/parse_rs1/parse_rs2/parse_imm"]}
{"id": "C53", "title": "Every operand bit comes from the bit of the word the manual says", "statement": "In a decoded 32-bit instruction bit k of an operand is the word's bit given, per operand and format tag, by the manual's figure of immediate variants (I, S, B, U, J, shift amounts, aq/rl, CSR number and immediate), for every k, sign-extension included; in a 16-bit instruction it is the bit given by the manual's scrambled immediates of each opcode and by the register fields of the format. The positions are given without the encoding tables.", "quantifier": "every word, both widths and ISAs, every operand, every bit position without bound", "why_tests_cant": "Tests see a few immediates; a swap of two bits shows only for words in which they differ.", "anchors": ["src/decode/*.rs parse_rd/parse_rs1/parse_rs2/parse_imm", "src/decode/inst_32.rs:16-36", "src/decode/inst_16.rs:16-36"]}
{"id": "C54", "title": "Display with any options and any sink", "statement": "Formatting an instruction with any formatter options ({:>30}, {:#}, ...) into any sink gives the same pieces in the same order, so width, fill and precision have no effect; a panic happens before anything is written; the result is an error exactly if the sink refuses a piece, and then a prefix of the text has been written: a buffer of n bytes holds the first n bytes, a String all of it. Likewise for an opcode.", "quantifier": "every Instruction value (decoded or not), all formatter options, all sinks and sink states", "why_tests_cant": "Sinks and failure points are unboundedly many.", "anchors": ["src/instruction.rs:46-225", "src/instruction.rs:463-478", "src/instruction/*.rs Display"]}
{"id": "C55", "title": "Decoding by mask and match constants", "statement": "A word is decoded as an instruction exactly if, among the (mask, match) entries that recognise it (w & mask = match), the most specific one belongs to that instruction; the entries are the MATCH/MASK constants of the RISC-V standard plus a short list of wider ones that the crate accepts. A word recognised by no entry is an error. With the standard's constants alone, every word assigned to an instruction is decoded as that instruction, except csrrs on a counter CSR and the c.add hints with rd = x0.", "quantifier": "all 2^32 words and 2^16 half-words, both ISAs, all platforms", "why_tests_cant": "It is a statement about every word and about the precedence between overlapping encodings; tests sample a few words of each instruction.", "anchors": ["src/decode.rs", "src/decode/inst_32.rs:11-60", "src/decode/inst_16.rs:8-41", "src/decode/*_extension.rs parse_opcode", "src/decode/base_i.rs:7-132"]}
{"id": "C56", "title": "Debug with any options and any sink", "statement": "Formatting an instruction (or the result of decode) with Debug and any options ({:x?}, {:#06X?}, {:*^7.2?}, {:+?}, ...) never panics and gives any sink the same pieces until it refuses one. The text has the layout of C46, on one line or with # on several, with every register and immediate in decimal or two's complement hexadecimal of the requested case, sign, prefix, zero padding, width, fill and alignment, and is_compressed cut to the precision and padded; opcode, format tag and None are never padded. Without width, precision, + and x it is the text of C46. The text identifies the instruction if nothing is cut off and the fill character is no part of a number, sign or separator; otherwise it need not.", "quantifier": "every Instruction value whose numbers fit their types (every decoded one), every decode result, all formatter options (with # the fill character is not a newline), all sinks and sink states", "why_tests_cant": "Options, sinks and failure points are unboundedly many.", "anchors": ["src/instruction.rs:28-44", "src/instruction.rs:268-461", "src/decode.rs:46-68", "src/instruction/*.rs derive(Debug)"]}
{"id": "C57", "title": "The helpers do what their examples show", "statement": "slice and set give the results shown in their documentation. Both examples are false: 0b0101_0101_1001.slice(5, 2) is 0b0110, not 0b1_0110 (bits 6..2), and 0b1010_1101.set(&[7,5,3,2,0,6,4,1]) is 0b1100_1011, not 0b1111_1000. The example of set shows the inverse operation: it collects the bits at the listed positions, where set scatters bits to them. For a mask that lists every position once, the two are inverse to each other on all words, and they agree on all words exactly if the mask is its own inverse.", "quantifier": "every mask of at most 32 different positions 0..n-1, every word of n bits, all platforms", "why_tests_cant": "The examples are marked ignore and never run; which masks and words tell the two readings apart is a statement about all of them.", "anchors": ["src/decode.rs:119-145", "src/decode/inst_32.rs:16-36", "src/decode/inst_16.rs:16-36"]}
{"id": "C58", "title": "The error names the field that is wrong", "statement": "If decoding a word fails with InvalidOpcode, InvalidFunct3, InvalidFunct5, InvalidFunct6 or InvalidFunct7, then no word with the same value of that field (and of the fields it is looked up by: opcode, funct3, funct7) is decoded, and another value of that field alone gives a word that is decoded. The first half is false exactly for: InvalidOpcode with opcode 0x0f or 0x73 (words like cbo.zero, unassigned shadow stack words), InvalidFunct3 in OP-32 on RV64 with funct3 other than 2 and 3, InvalidFunct7 in SYSTEM with funct7 0x08 or 0x18 (words like sret, mret, wfi). The second half is false exactly on RV32 for the major opcodes OP-IMM-32 and OP-32. For half-words InvalidOpcode means that no half-word with the same bits 15..13 and 1..0 is decoded, exactly except for the C.SUB group.", "quantifier": "every rejected word and half-word, both ISAs, all platforms", "why_tests_cant": "That no word with the field's value decodes is a statement about all words; the list of exceptions is exact.", "anchors": ["src/decode.rs:46-68", "src/decode/*.rs parse_opcode", "src/decode/inst_32.rs:115-165", "src/decode/inst_16.rs"]}
{"id": "C59", "title": "The uncompiled opcode table agrees with the compiled one", "statement": "src/instruction/opcode.rs is left over from a version with one flat OpcodeKind and is not compiled. Its opcodes are, one to one, the compiled ones without Zicboz, Zicfiss and Zicntr, and its functions agree with the compiled code: every opcode has the same format; the same extension, except fence (BaseI there, Zifencei now); the same text, except fence and mulhsu, whose compiled text is wrong (fence.i, mulhsu,) where the old one is the manual's.", "quantifier": "all 131 flat opcodes, all compiled opcodes", "why_tests_cant": "The file is not compiled, so no test can call it.", "anchors": ["src/instruction/opcode.rs:1-424", "src/instruction.rs:439-478", "src/instruction/*.rs Display, get_format"]}
{"id": "C60", "title": "How many words are instructions", "statement": "For each ISA and each extension, exactly the given number of words (half-words) is decoded as an instruction of that extension, and for each error exactly the given number of words is rejected with it. The numbers are those of a count by hand of the free bits of the encodings, deviations of the crate included; on RV64 297604131 words and 38783 half-words are decoded.", "quantifier": "all 2^32 words and 2^16 half-words, both ISAs, every extension and every error, all platforms", "why_tests_cant": "A count over the whole encoding space; one word too many or too few falsifies it.", "anchors": ["src/decode/*.rs parse_opcode", "src/decode/inst_32.rs", "src/decode/inst_16.rs", "src/decode.rs:47-68"]}
{"id": "C61", "title": "Running the source text gives what the model says", "statement": "The text of every file under src, read by a lexer, parser and linker for the Rust it uses, is a program; every one of its 104 functions, called with arguments of its declared parameter types, runs without getting stuck and either returns the value (and writes the text) that the function of the model returns, or panics with the reason the model gives.", "quantifier": "all functions of the compiled crate, all arguments of their types (and any text written before), all platforms", "why_tests_cant": "It relates two programs on all inputs of every function, private ones included.", "anchors": ["src/**/*.rs"]}
{"id": "C62", "title": "The source text decodes as the encoding tables say", "statement": "Evaluating u32::decode (u16::decode) of the source text on any word ends without a panic; either the word is in exactly one row of the table of accepted encodings and the value is Ok of the instruction the row reads from the word, or it is in exactly one row of the table of errors and the value is Err of its error. TryFrom<usize> evaluates to what decode gives for Rv64, or panics, by the two low bits and the size of the value. No function of the model is mentioned.", "quantifier": "all 2^32 words, all 2^16 half-words, all usize values, both ISAs, all platforms", "why_tests_cant": "The claim is about all words and about the source text itself, not a transcription.", "anchors": ["src/decode/inst_32.rs", "src/decode/inst_16.rs", "src/decode/*.rs", "src/lib.rs:75-87"]}
{"id": "C63", "title": "The source text of slice, to_signed_nbit and set", "statement": "Evaluated from the source text, slice returns the bits hi..lo, to_signed_nbit the sign-extended low n bits, set the scattered bits; each panics exactly where the contract says, with and without overflow checks.", "quantifier": "all words, all u32 positions, all masks, all platforms", "why_tests_cant": "Shift amounts, widths and masks range over all values, and the behaviour differs between build profiles.", "anchors": ["src/decode/inst_32.rs", "src/decode/inst_16.rs", "src/decode.rs:119-165"]}
{"id": "C64", "title": "The source text displays instructions as laid out", "statement": "Evaluated from the source text, Display of any value of type Instruction writes the mnemonic followed by its operands in the layout given for its format tag and opcode, and panics exactly if there is no layout or an operand of the layout is missing or is no register; Display of an opcode writes its mnemonic (with two known odd ones).", "quantifier": "all values of type Instruction, all opcodes, all platforms", "why_tests_cant": "The fields are public, so any combination of opcode, format and operands can be displayed.", "anchors": ["src/instruction.rs:46-266", "src/instruction/*.rs"]}
{"id": "C65", "title": "The crate's own tests pass", "statement": "Every #[test] function of the crate, evaluated from the source text built for tests, returns without a panic, in debug and release builds, where usize has 32 or 64 bits.", "quantifier": "all 13 test functions, all platforms with 32- or 64-bit usize", "why_tests_cant": "Tests run in one build on one platform only; and they check nothing about the evaluator that the other claims on the source text depend on.", "anchors": ["src/lib.rs:89-172", "src/decode/*.rs #[cfg(test)]"]}
{"id": "C66", "title": "Declared types and derived traits of the source", "statement": "The values of each type the source declares are exactly the values of the type of the model (for Instruction: those whose registers are usize and whose immediate is i32 numbers), different ones being different; the derived Debug of a result of decode shows what the model of Debug shows; the derived PartialEq on instructions is equality.", "quantifier": "all values of all types, all platforms", "why_tests_cant": "A variant, field or derive missing on one side shows only on values that use it.", "anchors": ["src/lib.rs:42-73", "src/decode.rs:46-68", "src/instruction.rs:28-44", "src/instruction.rs:268-340", "src/instruction.rs:439-461", "src/instruction/*.rs"]}
{"id": "C67", "title": "Types and effects of the functions of the source", "statement": "Every function of the source text, called with arguments of its declared parameter types, returns a value of its declared result type (for the helper only_rv64, whose result type is generic: Ok of its argument or Err of a DecodingError). It writes text only if it is given a formatter; text is only appended; and what it returns, writes or panics with does not depend on the text written before.", "quantifier": "all functions of the compiled crate, all arguments of their types, any text written before, all platforms", "why_tests_cant": "A claim about every result of every function on all inputs: that every u8 register is below 256, every i32 immediate in range, and that no call depends on or changes hidden state.", "anchors": ["src/**/*.rs"]}
{"id": "C68", "title": "The documentation's examples run", "statement": "Every example in the doc comments that is not marked ignore, and the example of README.md, evaluated with the crate as text, runs to the end without a panic, and prints the output it announces; every assertion in it is reached. The ignored example of DecodeUtil::set fails its assertion.", "quantifier": "all fenced code blocks of the documentation and README that use the crate; debug and release builds; 16-, 32- and 64-bit usize", "why_tests_cant": "cargo test does not run README.md, ignored examples, or compare printed output, and it runs one build on one platform.", "anchors": ["README.md", "src/lib.rs:1-41", "src/decode.rs:15-165"]}
{"id": "C69", "title": "The text of the uncompiled opcode table", "statement": "src/instruction/opcode.rs, evaluated as a program with the enums it refers to, consists of three functions on 131 flat opcodes. Evaluated beside the crate: every opcode has the format the crate gives the opcode of the same name; its extension is that opcode's extension exactly if it is not fence; its text is what the crate displays exactly if it is neither fence nor mulhsu; and its text is always the manual's mnemonic, up to case.", "quantifier": "all 131 flat opcodes, all platforms", "why_tests_cant": "The file is not compiled.", "anchors": ["src/instruction/opcode.rs:1-424", "src/instruction.rs:439-478", "src/instruction/*.rs"]}
{"id": "C70", "title": "The documentation of the format tags", "statement": "Every variant of InstFormat is documented by examples of assembler syntax in its comment. Read from the text: the mnemonic of an example is the text of exactly one opcode; OpcodeKind::get_format gives that opcode the tag the example is documented under; and every decoded instruction with that opcode is displayed as the example shows, with the names of operands replaced by their values. (False: csrrwi is also documented under CsrFormat and c.nop under CiFormat, which they are not given; and 13 of the examples, such as lw rd, imm(rs1), are not what is displayed.)", "quantifier": "all variants of InstFormat, all their examples, all decoded instructions, all platforms", "why_tests_cant": "It compares comments, which are not executed, with the text of every instruction of an opcode.", "anchors": ["src/instruction.rs:266-429", "src/instruction.rs:46-265", "src/instruction/*.rs get_format"]}
{"id": "C71", "title": "The text has one reading", "statement": "By the lexical structure and the grammar of Rust (the part of it that the crate uses, stated as relations between text, tokens and syntax trees), the files of /repo/src can be read in exactly one way: operators bind by precedence and to the left, a token is as long as it can be, >> is two closing brackets in a type, a struct literal does not start in the head of if, match or for, a statement that starts with a block ends with it. The programs that C61 to C70 evaluate are that reading with its names resolved. No other text can be read in two ways either.", "quantifier": "all lines of all files of /repo/src; all texts, token lists and syntax trees", "why_tests_cant": "Tests run one compiler's reading; that there is no other reading, of this text and of every text in the grammar, is a statement about all syntax trees.", "anchors": ["src/**/*.rs"]}
{"id": "C72", "title": "Every name has one meaning", "statement": "Let a path stand for whatever is in scope under it, by an item of the module, a use declaration of the module or of an enclosing block, a type parameter, a local variable, Self, crate, self, super, a primitive type, core, or the prelude, with no rule that one of these goes before another. Then the files of /repo/src, in their one reading (C71), stand for exactly one program, the one that C61 to C70 evaluate; without #[cfg(test)] they do so with no name of std (the crate is no_std outside tests), and with the tests for one program too. Default methods of traits are taken over exactly where an impl does not have its own. In general a crate that the linker accepts stands for what the linker returns and nothing else.", "quantifier": "all names in all files of /repo/src; all programs; all crates accepted by the linker", "why_tests_cant": "A test runs the compiler's choice of meaning; that no other choice exists, under no shadowing rule, is a statement about all derivations.", "anchors": ["src/**/*.rs"]}
{"id": "C73", "title": "Every call has one meaning, and decode means what the tables say", "statement": "Let rules for each construct of the Rust the crate is written in say how an expression, a block, a loop, a format string or a call ends (with a value, by return or ?, or in a panic), as relations, with no bound on depth and no algorithm. Then no call of any program ends in two ways; wherever the evaluator of C61 to C70 answers, its answer is the one way the call ends; every call of a function of /repo/src with arguments of its types ends in exactly one way, a value or a panic, and that is what the model says; every #[test] function ends without a panic on 32- and 64-bit targets; decode of a word ends with the instruction read by the row of the table that accepts the word, or with the error of the row that rejects it, and in no other way; try_from decodes the word or half-word by its low bits or panics; derived equality of instructions is equality and their derived Debug text is one text.", "quantifier": "all programs, calls and outcomes; all words, ISAs and platforms; all functions of /repo/src and all arguments of their types", "why_tests_cant": "A test runs one implementation of the language on one input; that the rules of the language leave no other outcome, for any input, is a statement about all derivations.", "anchors": ["src/**/*.rs"]}
{"id": "C74", "title": "Which branches of the code are of any use", "statement": "The compiled text of /repo/src has 832 branches: bodies of functions, closures and loops, sides of if, arms of match. Let the crate be used for what it is for: decode of a word or half-word for either ISA, try_from of a usize, and the text of what they return and of its opcode. Then 45 of the branches are never entered (defensive arms: extensions of the other length, words that parse_extension has given to another extension, fields whose values are all named, a register above 31): with panic!(\"reached\") in their place every such call ends as before. Each of the other 787 is entered by some such call, among them the arms with unreachable!() that displaying c.sspush and sspush ends in.", "quantifier": "all branches of the program the text stands for; all words, ISAs, usize values, platforms and texts written before", "why_tests_cant": "That a branch is never entered is a statement about all 2^32 words and all decoded instructions; that the list is complete needs a call for each of the others.", "anchors": ["src/**/*.rs"]}
{"id": "C75", "title": "Which branches of the code no caller can come to", "statement": "Another crate can call 26 of the functions of /repo/src: the six methods of Decode for u16 and u32, try_from, get_format of OpcodeKind, and fmt of Instruction, OpcodeKind and the ten enums of opcodes. Of the 832 branches of the compiled text 29 are dead: whatever arguments of the declared types these functions are called with, also opcodes of the other length and instructions put together by hand, with panic!(\"reached\") in any of the 29 places the call ends as before. Each of the other 803 is entered by some such call. The other 16 branches that decoding does not enter (C74) are therefore needed: 0u16.parse_opcode, operands of a word with an opcode of the other length, and writing a register above 31 or a CrFormat with another opcode come to them.", "quantifier": "all branches of the program the text stands for; all arguments of the declared types, platforms and texts written before", "why_tests_cant": "That a branch is dead is a statement about every word, every opcode and every instruction that can be put together; that the list is complete needs a call for each of the others.", "anchors": ["src/lib.rs:33-39", "src/decode.rs:82-118", "src/**/*.rs"]}
{"id": "C76", "title": "What the crate's own tests say nothing about", "statement": "The 13 tests of /repo/src come to 331 of the 832 branches of the compiled text (bodies of functions, closures and loops, sides of if, arms of match), and to no other: on a 64-bit machine with overflow checks each of the 331, and none of the other 501, is entered by some test; and with panic!(\"reached\") in the place of all 501 at once every test still passes, with 32-bit and 64-bit usize, with and without overflow checks. So any program that differs from this crate only in untested branches of functions that are written without closures (in both) passes all tests, whatever it has there; for example one where only_rv64 refuses nothing, which decodes ld for a 32-bit machine.", "quantifier": "all branches of the program the text stands for; all programs that differ from it in any of the untested branches; all tests; the four platforms", "why_tests_cant": "It is a statement about the tests themselves and about every other program that passes them.", "anchors": ["src/lib.rs:90-172", "src/decode/*.rs (mod test_*)", "src/decode.rs:21-26"]}
{"id": "C77", "title": "The code in useless branches may be any other", "statement": "Take any program that is the crate but for the code in some of the 45 branches that decoding and displaying do not enter (C74), without closures in the functions concerned: every call of decode or try_from, and every writing of what they give, ends there as in the crate. If the branches are among the 29 dead ones (C75) this holds for every well-typed call of every function another crate can call.", "quantifier": "all programs that differ from the crate in such branches only; all words, arguments, platforms and texts written before", "why_tests_cant": "It ranges over all programs and, for each, all inputs.", "anchors": ["src/decode/*.rs", "src/instruction.rs:60-270", "src/decode/zifencei_extension.rs:5-12"]}
{"id": "C78", "title": "What the crate offers to other crates", "statement": "By pub, pub use and mod in the text, the functions another crate can call are exactly the 26 of C75: a method of an impl is offered if its type is re-exported by lib.rs or primitive, and its trait is re-exported or one of core's, or the method of an inherent impl is pub; a free function if lib.rs re-exports it. No visible trait has a method with a body and no module of lib.rs is public, so nothing else is offered. Every type in the parameters and results of these functions, every part of a re-exported enum and every field of Instruction can be named by another crate, and the fields are public.", "quantifier": "all functions, enums and structs of the program the text stands for", "why_tests_cant": "The crate's own tests are inside the crate and see its private parts; that something cannot be named is not observable by a test that compiles.", "anchors": ["src/lib.rs:27-60", "src/decode.rs:82-160", "src/instruction.rs:26-45", "src/instruction.rs:431-500"]}
