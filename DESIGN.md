# A Rocq model of ublox-rs/ublox

The sources in `/repo` are modelled by hand-written (and, for the big
declaration tables, script-generated) Gallina functions in
`rocq/theories`.  Every definition carries a comment with the file and lines it
models.  `properties.jsonl` lists the English properties (C01 ...), `MANIFEST.json`
maps each to theorem names, and `seeded/LOG.jsonl` records the mutation tests.

## Layers

| layer | files | models |
|---|---|---|
| base | `Base.v` | bytes, `usize` arithmetic with overflow = panic, slices, the result monad `res` (`Ret`/`Panic`/`Diverge`) |
| checksum | `Checksum.v` | `UbxChecksumCalc`, `ubx_checksum` |
| buffers | `Buffers.v` | trait `UnderlyingBuffer` as a record of operations, `Vec<u8>`, `FixedLinearBuffer` |
| dual buffer | `DualBuffer.v` | `DualBuffer` method by method |
| parser | `Parser.v` | `Parser::consume`, `ParserIter::next`, `extract_packet`, `Drop` |
| specification | `Spec*.v` | what the theorems are stated with: frames, the reference scanner on one byte list, calendars, real-number meaning of floats, ... |
| proofs | `Proof*.v` | refinement lemmas |
| theorems | `Prop*.v` | the theorems of the properties with the lemmas they need, examples, `Print Assumptions` |
| derive macro | `PackDesc.v`, `Gen*.v` | packet descriptions and the semantics of the code generated from them |
| tables | `Table*.v` (generated by `tools/`) | the packet, enum, bitflag and configuration-key declarations |
| hand-written packet code | `Iterators.v`, `Utf8.v`, `Bits.v`, `Floats.v`, `Setters.v` | iterators, validators, bit fields, scaled floats, builder methods |
| configuration items | `CfgVal.v` | keys, value encodings, parser and iterator of `CfgVal` |
| conversions | `DateTime.v`, `Convert.v` | `DateTime`, `Position`, `Velocity` from navigation packets |
| serialization, debug | `Serialize.v` | `Serialize` and `Debug` of packets over an arbitrary serde backend |
| command line tool | `Cli.v` | option handling, port configuration, the device loop |
| macro front end | `Tokens.v`, `Syntax.v`, `Macro.v`, `Meaning.v` | a lexer and a small syn, `input.rs`, `lib.rs`, the panics of `output.rs`; which definition of the model a name stands for |
| code generation | `Quote.v`, `Output.v`, `Rust.v`, `Code.v` | `quote!`, every template and function of `output.rs` on token trees; the syntax and meaning of the Rust they write; the same output as syntax trees |
| source text | `Source*.v` (generated) | packets.rs, cfg_val.rs, types.rs, output.rs and tests.rs (of the macros) verbatim, as strings |

## Modelling conventions

* `u8` is `Coq.Init.Byte.byte`: 256 constructors, no well-formedness side conditions.
* `usize` is `N`, and every `+`/`-` in the Rust text is a checked operation which
  returns `Panic` when the mathematical result leaves `0 .. 2^64-1`, so "no panic"
  includes "no arithmetic overflow in a debug build".
* a function which may panic returns `res A`; loops are structural or carry fuel, and
  running out of fuel is the separate outcome `Diverge`, which the theorems exclude.
* `&mut` becomes a returned value; borrowed results become values.
* `UnderlyingBuffer` is a record of operations; the parser is written once over that record.
  `Lawful` states the trait's documented contract.  No functors or module types.

## Per property: model and proof

* **C01, C02, C03, C05, C07, C09, C15, C57** (`Parser.v`, `DualBuffer.v`, `SpecFrame.v`, `PropParser.v`): a reference
  scanner `scan : list byte -> list event * list byte` on one list; the parser over a growable buffer is proved to refine it
  for every cut of the stream, then the properties are proved of the scanner (compositional in `++`, completeness,
  justification of every event).
* **C04** resynchronisation: from the scanner, for every garbage prefix.
* **C06** no panic: every operation returns `Ret` in every state that satisfies the representation invariant, for any
  lawful buffer; invariants are preserved.
* **C08, C12** error surface: which errors can be returned, with justification.
* **C10, C11, C13, C14** fixed capacity (`PropFixed.v`): simulation between the bounded buffer and the growable one;
  sharp counter-examples, for every capacity where possible.
* `PropLibrary.v` instantiates the parser theorems (which hold for every dispatch function) at the dispatch function of
  the library and restates them without the parameters.
* **C16** abstraction function of `FixedLinearBuffer` to a bounded queue, simulation over operation lists.
* **C17, C18** from the `Lawful` contract alone; the two-buffer view is list concatenation.
* **C19, C20** the Fletcher sums as sums modulo 256, in closed form.
* **C21-C26, C38, C55, C56** deep embedding of packet descriptions and of the generated code; theorems for every
  description the macro accepts, instantiated at the generated table.
* **C27, C28, C30, C37** dispatch over the generated table; validators characterised per packet.
* **C29** all getters return `Ret` after validation (one exception, refuted).
* **C31, C32** enum and bitflag descriptions: general theorems plus a check of the tables.
* **C33-C36** iterators and validators, UTF-8 validation as in the Unicode standard.
* **C39-C43, C58** configuration items: general codec theorems plus a check of the key table.
* **C44** proleptic Gregorian calendar: seconds since an epoch as a closed form, injectivity.
* **C45, C46, C47, C48, C59** IEEE-754 through `SpecFloat`, with error bounds over the reals (Flocq).
* **C49-C51** bit-field functions on `N`, proved over all words by `N.testbit` or by a computed sweep of the finite type.
* **C52** any serde backend, as a record of operations that may fail.
* **C53, C61** option handling by case analysis over all admitted options; the device loop by reduction to the scanner
  for every sequence of read outcomes.
* **C54, C60** class and id comparisons, rate setters, reset masks.
* **C62** a table of the documented messages (`SpecInterface.v`: class, id, length, and for each field offset, format, unit,
  flags or codes), against which every getter and every builder field is proved, through the general getter and builder
  theorems; the fields where the library deviates from the documentation are listed in the table and refuted.

* **C63-C66** (`Macro.v`, `SpecMacro.v`, `PropMacro.v`): each parsing function on token trees against a declarative grammar,
  as an equivalence, by induction over the token or item lists; every panic of the macros is characterised.
* **C67** (`PropSource.v`): the macro model is run by the kernel on the verbatim text of packets.rs and cfg_val.rs, and its
  result is proved equal to the tables the other theorems are about.
* **C68** (`Session.v`, `SpecSession.v`, `PropSession.v`): the whole run of the command line tool as a trace of writes, reads and
  printed values, for every schedule of reads and writes; an invariant of the trace by induction over the requests and
  the reads, on top of C61, C53, C36, C44, C47 and C52.

* **C69** (`Output.v`, `Code.v`, `PropOutput.v`): the templates of the model are compared by the kernel with all `quote!` bodies in the text
  of output.rs; the emitted text is proved to be the printed form of a syntax tree, by induction over the fields.
* **C70** (`Rust.v`, `SpecCode.v`, `PropCode.v`): an evaluator for the subset of Rust in which the macros write; the syntax trees of C69
  are run in an arbitrary program and proved to compute `GenRecv.v`, `GenSend.v`, `Enums.v` and `Dispatch.v`, by induction over the fields,
  the packets and the variants.
* **C71** (`SpecLib.v`, `PropCodeLib.v`): the program of the library satisfies the hypotheses of C70 for every declaration of packets.rs,
  so the generated functions of the library compute the packets of `TablePackets.v`.
* **C72** (`SpecShow.v`, `PropShow.v`): the same for the generated `fmt`, `serialize_fields` and `serialize`, with an arbitrary formatter
  and serializer; the model of C52 is the same function at its own values (`model_serialize`, `model_debug`).
* **C73** (`Default.v`, `SpecDefault.v`, `PropDefault.v`): the derived defaults, read from the attributes in the source text; the bytes of a
  field depend on its value only (any declaration), so a field which is not set has the bytes of the default payload.
* **C74** (`Messages.v`, `SpecMessages.v`, `PropMessages.v`): the texts of the errors; a text is split at the characters which its
  names and numerals cannot contain.  The error of `validate` by induction on the fields.
* **C75** (`Data.v`, `SpecData.v`, `ProofData.v`, `PropData.v`): serialization down to the last value.  `Data.v` gives every mapping
  of the declarations the `Serialize` implementation of its type; `told` in `SpecData.v` says, for each kind of field, what value
  belongs to its bytes.  Field by field the value is as told, hence packet by packet; and `told` is injective in the bytes for
  all kinds of fields but four, hence so is a packet, because its fields cover its payload.
* **C76** (`Serde.v`, `SpecSerde.v`, `ProofSerde.v`, `PropSerde.v`, `SourceTypes.v`): types and values of the data model of serde with
  the derived `ser` and `de`.  The types are read from the texts of packets.rs and types.rs; reading back what was written by
  induction on the type; a struct from a map by an invariant of the fields already filled.
* **C77** (`Lang.v`, `Exec.v`, `SpecExec.v`, `ProofExec.v`, `PropExec.v`, `SourceParser.v`, `SourceUbx.v`): the functions of parser.rs and
  ubx_packets.rs are read from their text into a syntax of statements and expressions (`Lang.v`) and executed by an interpreter
  (`Exec.v`) with checked arithmetic, mutable places, early return and loops.  By symbolic execution every function is equal to the
  function of the model on all arguments; the functions are linked, and programs which use them are compared by induction on the
  history.  Executing the text found one difference in the order of two steps of `extract_packet`, since corrected in the model.
* **C78** (`SpecExecPackets.v`, `ProofExecPackets.v`, `PropExecPackets.v`): the 128 hand-written functions and constants of packets.rs are
  read from its text with the reader of C77 and executed by the same interpreter, linked to each other, to the generated getters
  (which C70 and C71 treat) and to a small library (`try_into`, `ChunksExact`, `from_utf8`, `debug_struct`), given in
  `SpecExecPackets.v`.  Each function is equal to that of `Bits.v`, `Iterators.v`, `Utf8.v` or `Setters.v`, by symbolic execution and
  exhaustive cases of masked fields.  Not executed: `CfgValIter::new` (it writes into a slice in a
  loop), compared by reading only.  `AidIniBuilder`'s two setters and `ScaleBack` (floats, chrono) are in C81.
* **C79** (`MacroRules.v`, `SpecExecCfg.v`, `ProofExecCfgText.v`, `ProofExecCfg.v`, `PropExecCfg.v`): the three `macro_rules!` macros of
  cfg_val.rs are read from its text and expanded (`MacroRules.v`: matchers with repetitions, fragments, nested invocations); the 1312
  functions and constants of the expansion are read with the reader of C77.  They are shown equal to one template per function, applied
  to the table; a template is executed symbolically once for each of the 13 types, and the arms of a `match` by induction on the table.
* **C80** (`PropExecLibrary.v`): the central guarantees about the executed text.  The equations of C77 and C79 (the text, executed,
  is the model) are composed with the theorems about the model (C01, C02, C03, C06, C11, C25, C28, C30, C39, C40).  The statements mention
  only the interpreter, the text, the wire format and what a frame is delivered as.
* **C81** (`SpecExecTypes.v`, `ProofExecTypes.v`, `PropExecTypes.v`): types.rs, the setters of AID-INI and `ScaleBack` are read with the reader
  of C77 and executed by a second, smaller interpreter whose values are typed integers, floats (`SpecFloat`), and the dates and times of
  `DateTime.v`; a received packet is the list of what its getters return.  Proved by symbolic execution, statement by statement for the
  two functions with dates.

Every property in `properties.jsonl` is expressible in the model; none is marked not applicable.  Properties which the
code violates are stated in their sharp true form; the stronger expectation is refuted by a theorem with suffix
`_refuted` which exhibits the witness.

## Trusted base

1. **Coq 8.16.1's kernel**, including its `vm_compute` machine.  No native compiler, no plugins, no kernel check switched off.
2. **Axioms.**  No axiom, parameter or admitted proof is declared in `rocq/theories`.  `Print Assumptions` stands at the end
   of every `Prop*.v` file for every theorem.  It prints "Closed under the global context" for all theorems except those
   about floats over the real numbers, for which it prints exactly these four axioms of the standard library:

   * `ClassicalDedekindReals.sig_not_dec`
   * `ClassicalDedekindReals.sig_forall_dec`
   * `FunctionalExtensionality.functional_extensionality_dep`
   * `Classical_Prop.classic`

   The theorems that use them: all of `PropConvert.v` (`position_pos_llh`, `position_pvt`, `velocity_pvt`,
   `velocity_vel_ned`, `position_hp_pos_llh`, `position_hp_pos_ecef`, `hp_altitude_refuted`, `ecef_metres_refuted`);
   `getter_accurate`, `scaled_round_trip`, `scale_back_finite`, `scale_back_formula`, `scale_back_infinite`
   (`PropFloat.v`); `set_position_exact`, `set_position_accurate` (`PropAid.v`); `builder_total`,
   `builder_nan_panics_refuted`, `recode` (`PropFields.v`); `documented_getters`, `documented_blocks`,
   `documented_deviations_refuted`, `documented_builders`, `rcvr_mode_refuted` (`PropInterface.v`; the last two
   refutations use `classic` also for the equality of dependent pairs); `session_order`, `session_prompt`, `session_shows`,
   `session_ends`, `session_survives` (`PropSession.v`).  Loading Flocq also loads library files
   with further declarations (`Coq.ssr.ssrunder.Under_rel`, internals of `Coq.Reals.Rdefinitions`), which a listing of the
   environment shows and no theorem uses as axioms.
3. **The model.**  That the Gallina functions say what the Rust text says is checked by reading, definition by definition,
   with the cited lines.  `tools/gen_tables.py` translates the packet, enum, bitflag and configuration key declarations; it
   is not trusted: C67 proves its output equal to what the model of the macros reads in the text of the two files.  That
   this text is the text of `/repo` is checked by `tools/gen_source.py --check`.  `Validation.v` replays the run-time tests of
   the repository (parser.rs, packets.rs, tests/) on the model, with the same inputs and assertions; `PropOutput.v` and
   `SourceTests.v` those of the macros.  For parser.rs and ubx_packets.rs C77 proves the model
   equal to the execution of the text, C78 for the hand-written functions of packets.rs (with the library of
   `SpecExecPackets.v`) C79 for cfg_val.rs (with that of `SpecExecCfg.v`), and C81 for types.rs and the conversions through floats (with the interpreter of
   `SpecExecTypes.v`).  What remains to be read: the interpreters (`Lang.v`, `Exec.v`, `SpecExecTypes.v`), the expansion of `macro_rules!` (`MacroRules.v`), the lexer and
   syntax (`Tokens.v`, `Syntax.v`), the meaning of names (`Meaning.v`, `SpecLib.v`), of `quote!` (`Quote.v`) and of Rust (`Rust.v`),
   and that the printed form of a syntax tree is read back by the compiler as this tree.
4. **The specifications** in `Spec*.v`, which the statements use.  The table in `SpecInterface.v` was written from knowledge
   of the u-blox interface descriptions (there is no copy in `/repo`) and the comments in packets.rs.

### Modelled

* `ublox/src/parser.rs`: all of it except the tests: both buffers, `DualBuffer`, `Parser`, `ParserIter`, checksums.
* `ublox/src/ubx_packets.rs`: checksum, `MemWriter`, `UbxPacketRequest`, unknown packets.
* `ublox/src/ubx_packets/packets.rs`: every packet declaration, enum, bitflags type and hand-written `impl`; the
  `Debug` implementations of `FixStatusInfo` and `NavSatSvFlags` in C78.
* `ublox/src/ubx_packets/cfg_val.rs`: all.
* `ublox/src/ubx_packets/types.rs`: all; `FieldIter` in C75 (in C52 and C72 it is the marker `SerSeq`).
* `ublox/src/error.rs`: all (C74); `std::error::Error` has no methods of its own here.
* `ublox_derive/src/output.rs`: the templates and the text they yield (C69), and the meaning of the generated code (getters,
  validators, builders, enum and bitflags code, dispatch: C70, C71; serialization, debug: C72).
* `ublox_derive/src/types.rs`, `input.rs`, `lib.rs`: all, on token trees; error spans and the attributes handed on to the
  generated items are left out.
* `examples/ublox-cli/src/main.rs`: options, `configure`, `Device`, and the session after the port is opened; not the text
  of the printed lines.

### Not modelled, or modelled by documented behaviour

* Rust's ownership and memory: `&mut` is a returned value, a slice is the list of its bytes.  Allocation never fails.
* Release-build wrap-around: overflow is a panic, as in a debug build; the theorems show the absence of it, or name it.
* The crates chrono (calendar dates, durations), num-traits (`to_i8` ...), bitflags (`from_bits_truncate`, `all`), serde
  (a serializer is an arbitrary record of operations; the data model and the derived implementations of C75 and C76), serialport (a list of read outcomes) and clap (the options after
  parsing) by their documented behaviour.
* `f32`/`f64` by `SpecFloat`, with one NaN; where the sign of a NaN matters it is a parameter (`nan_neg`).
* `core::str::from_utf8` by the Unicode table 3-7; `chunks`, `chunks_exact` by their documentation.
* The crate syn: lexing, attributes, meta items, types, items by its documentation, as far as packets.rs and cfg_val.rs need
  it (an expression in an attribute ends at the next comma; `where` clauses and generic parameters are skipped).
* The printing of the command line tool and of `Debug` (what is handed to the formatter: C72); `{}` and `{:x}` of integers by their
  documentation.
