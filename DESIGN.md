# Formal model of Alignof/raki in Coq 8.16.1

`raki` is a RISC-V instruction decoder. The API is: `u16/u32::decode(isa)`, the
`parse_*` methods of the `Decode` trait, `Instruction::try_from(usize)`, and
`Display`/`Debug`/`PartialEq` of the results.  The code is pure (no I/O, no
concurrency, no unsafe code), so the model is a set of total Gallina functions.

## 1. Model

* Rust integers are `Z` values with the range explicit. Every `+ - pow << >>` that can
  overflow goes through a checked primitive (`Rust.v`): with overflow checks it
  *panics*, without it *wraps*. The platform (`overflow_checks`, `usize_bits` in 16/32/64) is an
  explicit parameter `p` of the decoding functions.
* A function that may panic returns `outcome A = Ret a | Panic why`
  (`assert!`, `unwrap`, `expect`, `unreachable!`, `panic!`, arithmetic overflow are
  distinguished). `Result` and `Option` are data.
* Each definition cites the lines of /repo it models. One Coq file per part of the crate:

| Coq file | Rust source |
|---|---|
| `Rust.v` | the Rust primitives used (checked arithmetic, casts, `try_from().unwrap()`) |
| `Types.v` | `lib.rs` (`Isa`, `Extensions`), `instruction.rs` and `instruction/*.rs` (enums, `get_format`), `decode.rs` (`DecodingError`) |
| `DecodeUtil.v` | `decode.rs` (`only_rv64`, `to_signed_nbit`), `slice`/`set`/`parse_extension` of `inst_32.rs`, `inst_16.rs` |
| `Dec32.v` | `bit_32` modules of `decode/*.rs` |
| `Dec16.v` | `bit_16` modules of `decode/c_extension.rs`, `zicfiss_extension.rs` |
| `Decode.v` | `Decode for u32`, `Decode for u16`, `TryFrom<usize>` |
| `Fmt.v` | `Display` of opcodes and of `Instruction`, `reg2str` |
| `FmtSink.v` | the same `Display` implementations with formatter options and a sink that may fail, and the part of `core::fmt` they use |
| `PartialEq.v` | the derived `PartialEq` implementations, written out field by field |
| `Debug.v` | the derived `Debug` implementations, `{:?}` and `{:#?}` |
| `DebugSink.v` | the same with any formatter options and a sink that may fail; `PadAdapter`, `DebugStruct`, `DebugTuple` of `core::fmt` |
| `OpcodeRs.v` | `instruction/opcode.rs`, which is not compiled (see C59) |
| `Tests.v` | the crate's own unit tests, replayed on the model (a check of the model, not a proof) |

Simplified: `self >> i` with an `i32` shift amount etc. is modelled by the mathematical value of the
amount; `HashMap`-free, allocation-free code needs nothing else. In `Fmt.v` `write!` is modelled by the text it
produces; `FmtSink.v` models it with options and a failing sink, and C54 relates the two (C56 for `Debug`).
`write_char` is taken to be `write_str` of the character, and fill characters are ASCII.

Not modelled: the `#[cfg(test)]` code (it is evaluated from its text, see C65, and its assertions are the
examples of `Tests.v`); `CONTRIBUTING.md`, build files.

### The source text

The model above is written by hand. A second layer starts from the text of /repo/src itself and is proved to
agree with it (C61), so that the transcription need not be trusted:

| Coq file | contents |
|---|---|
| `SrcText.v` | every line of every file under /repo/src, and of README.md, written by `tools/embed.py` (`--check` compares it with /repo) |
| `SrcLine.v`, `SrcLex.v`, `SrcAst.v`, `SrcParse.v` | lines, tokens, syntax trees, a recursive-descent parser for the Rust the crate uses |
| `SpecGrammar.v` | tokens and grammar of that part of Rust, as relations, from The Rust Reference; the lexer finds the tokens exactly, the parser the readings exactly, and no text has two (C71) |
| `SrcNames.v`, `SrcLink.v` | modules, `use`, `cfg(test)`, name resolution; every function gets a key such as `u32.decode` or `decode::only_rv64`; a crate with an unknown name, or with a name that has two meanings, is refused |
| `SpecNames.v` | what names stand for, as relations, without any rule of precedence; what the linker accepts it links in the only way there is (C72) |
| `SrcSem.v` | the evaluator: integer types with their widths, checked or wrapping arithmetic, `match`, `?`, closures, `for`, `write!` and `println!` with `{}`, `{:x}`, `{:?}`, assertions, panics; `Wrong` where it knows no answer |
| `SpecMeaning.v` | what a program does when it runs, as relations (big-step, without fuel and continuations); no call has two results, and the answers of the evaluator are the results (C73) |
| `SpecReach.v` | branches of the text, programs with traps in some of them, what the crate is used for, and the branches that no use comes to (C74); proofs in `SrcLive*.v` (the program with traps is evaluated as the crate was), calls for the other branches in `SrcWitness.v`; `SrcTrap*.v`: with more traps a program does the same or dies in one |
| `SpecPublic.v` | the functions another crate can call, and the branches that no such call comes to (C75); `SrcApart.v`: a function that never comes to one with a trap does the same without it |
| `SpecVisible.v` | what another crate can name, from `pub`, `pub use` and `mod` in the tokens and items of the text (C78) |
| `SpecTested.v` | the branches the tests come to, programs that differ from the crate in some branches only (C76, C77), two such wrong programs; `SrcTested.v` has a test for each tested branch, `SrcTested2.v` and `SrcAny.v` what follows for any code in the others |
| `SrcProg.v` | the program that the text is (`crate`), and the one built for tests (`test_crate`) |
| `SrcEmbed.v` | values of the source for values of the model |
| `SrcDerive.v` | values of the declared types; derived `Debug` and `PartialEq` |
| `SrcModel.v` | which function of the model stands for which function of the source |
| `SrcDoc.v`, `SpecDoc.v` | the examples of the doc comments and of README.md, as modules of the crate |
| `SpecOld.v` | `instruction/opcode.rs` as a program of its own |
| `SpecTag.v` | the examples in the comments of `InstFormat`, as templates |

`SrcExt`, `SrcUtil`, `SrcDec32`, `SrcDec16`, `SrcDecode`, `SrcFmt`, `SrcDeriveOk`, `SrcAll`, `SrcCover`, `SrcClaims`,
`SrcTyped`, `SrcDocOk`, `SrcOldOk`, `SrcTagOk` are proofs (and `SrcGram*`, `SrcLexOk`: what is read is in the grammar; `SrcLexAll`, `SrcFull*`: what is in the
grammar is read; `SrcRead`: both for whole files; `SrcTie*`, `SrcLinked`: names; `SrcOne`: one meaning; `SrcRuns*`: the evaluator's answers
are the meaning; `SrcMeant`: both for the crate): the evaluator is run symbolically on each function body (`lazy`), with the calls inside left as
they are, and the result is compared with the model. `SpecSource.v` states what the claims say.
The evaluator does not evaluate what the crate does not use (loops other than `for`, references that are
written to, generics other than by their values, ...); on such a text it answers `Wrong`, or does not read it at all.

## 2. Specification

Independent of the model: only `Types.v` (the result type) is shared.

| file | contents |
|---|---|
| `Spec.v` | encoding tables: `table32` (109 rows), `table16` (36), `errors32` (21), `errors16` (4) |
| `SpecOps.v` | operand positions and ranges, immediate ranges, RV64-only/RV32-only opcodes |
| `SpecText.v` | numerals, ABI names, mnemonics, documented and printed operand syntax |
| `SpecApi.v` | decoded instructions, operand presence, conformance of the text |
| `SpecAsm.v` | the encoder: word of an instruction, valid operand values, expansion of RVC |
| `SpecHelp.v` | bit fields, sign extension, scatter, extension of an opcode |
| `SpecExt.v` | the words of each extension |
| `SpecDisplay.v`, `SpecDebug.v` | layout of the text of any value |
| `SpecFormat.v` | operands named by a format tag; source bit of every operand bit, from the manual's figures |
| `SpecMask.v` | mask and match constants of the standard, and the wider ones of the crate; uses nothing of `Spec.v` |
| `SpecSink.v` | writing piece by piece, sinks that store text |
| `SpecDebugSink.v` | numbers and `bool`s with width, fill, sign, base; the Debug text made of them |
| `SpecExample.v` | collecting the bits at listed positions |
| `SpecBlame.v` | the field an error names, words that agree or differ there only |
| `SpecOpcode.v` | names of `opcode.rs` and of the compiled code |
| `SpecCount.v` | cardinality; the numbers of C60 |
| `SpecStream.v` | programs as 16-bit parcels and the walk through them |
| `SpecBits.v` | inverting a bit; the bits decoding is blind to; opcodes one bit apart; what can be returned |

A row has an opcode, its operand fields (`r_cls`), the encodings of the *manual* (`r_man`) and
those the crate *accepts* (`r_acc`); encodings are bit patterns in the manual's order
(`"0000000 ..... ..... 000 ..... 0110011"`) minus excluded patterns. The two differ exactly where
the crate is more lenient or stricter than the manual, so the deviations are visible in the table.
Words are inspected with `Z.testbit` only.

## 3. How the proofs go

* **u32 opcode selection** (`CanonBase`, `Canon`, `CanonSpec`, `Exact32`): model and table depend only on the
  opcode bits, funct3, bits 31..20 and on rs1 and rd; each word is
  replaced by a canonical one with the same choice, and the canonical ones are swept completely
  (`forallb .. = true` by `vm_compute`, lifted with `forallb_forall`).
* **u16 opcode selection** (`Canon16`, `Exact16`): the same with canonical half-words.
* **operands** (`Oper32`, `Oper16`): bit-level reasoning on arbitrary words, both with and without
  overflow checks.
* **relations between encodings** (`Pat`): a decision procedure for inclusion and disjointness of
  boolean combinations of patterns, with soundness proof.
* `Rows*`, `Operands`, `Api`, `Claims`, `Findings`, `Tight`: consequences; `Blame`: what remains decodable when bits are fixed; `Count`: number of words of a formula; `OldOpcode`: `opcode.rs`; `Formats`: format tags and source bits; `Numerals`, `Text*`, `Disp`, `DebugOk`, `SinkOk`, `DebugSinkOk`, `DebugSinkOk2`: text;
  `Asm`..`Asm5`, `Stream`: encoder; `Bits`: single bits; `Helpers`, `Example57`, `Ext`, `Ext2`: helpers and `parse_extension`; `Plat`: platform independence;
  `PartialEqOk`: equality.
* The property theorems are in `Props*.v`, each closed by `exact`, followed by `Print Assumptions` and by a
  concrete case (`Cnn_case`).

## 4. Properties

`MANIFEST.json` lists the theorems. A property that is false of the code is `partial`: the theorem
`.._refuted` gives a witness, `.._partial` proves the claim with the exceptions stated exactly (mostly as an
equivalence, so that the exceptions are known to be all).

| id | how | result |
|---|---|---|
| C01-C04 | from the exact characterisation; `platform_ok p` is arbitrary | proved |
| C05-C07 | manual's encodings are accepted and read per table | proved |
| C08 | csrrs of a counter CSR with rs1 != x0 | refuted, rest proved |
| C09 | fence.i is rejected | refuted, rest proved |
| C10 | ssamoswap.d accepted on Rv32 | refuted, rest proved |
| C11 | HINT c.add x0, rs2 becomes c.ebreak | refuted, rest proved |
| C12, C13 | decode = table, for all words | proved |
| C14, C15 | illegal words accepted | refuted, exact set proved |
| C16-C20 | uniqueness, operand values and ranges | proved |
| C21 | ISA-dependence, 4 opcodes | refuted, exact conditions proved |
| C22-C24 | Rv32/Rv64 agreement, errors | proved |
| C25 | Not16BitInst/Not32BitInst never returned | refuted, exact error proved |
| C26 | decode = composition of the parse methods | proved |
| C27 | parse methods on foreign opcodes panic for Zicfiss | refuted, exact behaviour proved |
| C28 | TryFrom agrees with decode | proved |
| C29 | TryFrom panics on large values | refuted, exact condition proved |
| C30-C34 | text: panics, syntax, mnemonics, injectivity, readability | refuted, exact sets proved |
| C35-C38 | encoder round trips, operand bits, expansion | proved with exceptions, each refuted |
| C39 | derived equality | proved |
| C40-C44 | parse methods on any word; `slice`, `to_signed_nbit`, `set`; `parse_extension` | proved |
| C45, C46 | Display of any value; the Debug text of any value or error, and its uniqueness | proved |
| C47 | streams of instructions | proved |
| C48 | each operand has its own bits | proved |
| C49 | which single-bit changes go unnoticed | proved (exact set, not empty) |
| C50 | related opcodes decode alike | proved (with the exact exception: format tags of lr.w/lr.d) |
| C51 | exactly what decode can return | proved |
| C52 | format tag and operands present | refuted, exact exceptions proved |
| C53 | source of every operand bit, without the tables of `Spec.v` | proved |
| C54 | Display with any options, any sink | proved |
| C55 | decoding by the MATCH/MASK constants of the standard | exact with the crate's wider entries; partial for the standard alone |
| C56 | Debug with any options, any sink | proved |
| C57 | documented examples of `slice` and `set` | both false; refuted, and what the examples show is proved to be the inverse of `set` |
| C58 | the error names the field at fault | refuted, exact exceptions proved |
| C59 | `opcode.rs` against the compiled code | refuted for fence and mulhsu, rest proved |
| C60 | number of words per extension and per error | proved |
| C61 | every function of the source text = its function of the model | proved |
| C62-C64 | decoding, helpers, text: the source text against the specification, without the model | proved |
| C65 | the crate's tests, evaluated | proved for 32- and 64-bit usize (one test does not compile for 16 bits) |
| C66 | declared types and derived traits of the source | proved |
| C67 | result types and effects of every function of the source | proved |
| C68 | examples of the documentation, evaluated | proved |
| C69 | `opcode.rs`, evaluated, against the evaluated crate | proved (the differences are part of the claim) |
| C70 | examples in the comments of the format tags, read from the text, against the evaluated Display and get_format | refuted for 2 places and 13 examples, exact sets proved |
| C71 | the text has one reading by the grammar, and the evaluated programs are that | proved |
| C72 | every name of the text has one meaning; the text stands for one program, without `std` | proved |
| C73 | every well-typed call has one result by the rules of `SpecMeaning.v`: the model's; decoding from text to tables | proved |
| C74 | which branches of the text are entered by decoding and displaying: all but 45 of 832 | proved |
| C75 | which branches of the text another crate can come to at all: all but 29 of 832 | proved |
| C76 | which branches of the text its own 13 tests come to: 331 of 832; any closure-free code in the others passes them | proved |
| C77 | any closure-free code in the branches of C74 or C75 leaves every use, or every call from outside, as it was | proved |
| C78 | the 26 functions of C75 are exactly what `pub` and `pub use` offer; every type they need can be named | proved |

None of the properties is inexpressible in the model.

## 5. Trusted base

* Coq's kernel, including its virtual machine (`vm_compute` is used for the finite sweeps).
  `vcheck` re-checks with `coqchk`.
* `Print Assumptions` reports "Closed under the global context" for every property theorem. The
  standard library modules loaded (through `Lia`/`ssr`) contain the opaque module-type items
  `Coq.ssr.ssrunder.Under_rel.*`, which `coqchk` lists; no theorem uses them.
* No axioms, no `Admitted`, no functors, no disabled checks.
* For C61-C78, instead of the model: that `SrcText.v` is the text of /repo (`tools/embed.py --check`), and that the
  grammar of `SpecGrammar.v`, the names of `SpecNames.v` and the rules of `SpecMeaning.v` give Rust its
  meaning (lexer, parser, linker and evaluator need not be trusted: C71, C72, C73; the values of the declared types in
  `SrcDerive.v` are part of what the claims say). C65 is a check of these: the 13 tests of the crate pass. C61 is another: model and
  evaluator agree on every function. Also that rustc accepts the text: the evaluator does not look at visibility,
  trait bounds, lifetimes, exhaustiveness or unused parts; of types it needs those of literals only, and C67 shows
  that every result has its declared type.
* For the other claims, that the model says what /repo says (proved relative to the evaluator by C61): definitions follow the Rust text line by line;
  `tools/fidelity.py` compares names, numbers and strings of each definition with the cited lines, in order; `Tests.v`
  replays the crate's tests; `seeded/LOG.jsonl` records edits of the model and the theorems that then fail
  (`seeded/negate.py` proves the negations of the statements on edited models).
* For C75 and C77, that `public` lists what another crate can call: C78 derives it from the text by the rules of
  `SpecVisible.v` (two levels of files, no `use .. as`, `pub` without parentheses: all the text has).
* That the tables of `Spec.v` say what the RISC-V manual says (C53 checks the operand positions against a
  second, bitwise description, C55 the encodings against mask and match constants).
* For the text: `core::fmt` (integers, padding, `debug_struct`, `debug_tuple`, `PadAdapter`) and `#[derive]`.
