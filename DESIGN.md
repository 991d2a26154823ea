# Formal model of slowtec/ur20 in Rocq (Coq 8.16.1)

## What is modelled

All non-test code of the crate, function by function:

| model file (`rocq/theories/`) | code |
|---|---|
| `Base.v`    | the result/panic/overflow conventions of Rust used by the code |
| `F32.v`     | `f32` arithmetic: IEEE-754 binary32, round to nearest even (stdlib `SpecFloat`, prec 24, emax 128), integer to float conversions, saturating `as i16` |
| `Types.v`   | the types of `src/lib.rs`, `src/error.rs` and of the module files |
| `Lib.v`     | the functions of `src/lib.rs` |
| `Util.v`    | `src/util.rs` |
| `Digital.v` | `ur20_di_generic.rs`, `ur20_do_generic.rs`, `ur20_16do_p.rs`, `ur20_4ro_co_255.rs`, `ur20_pf_o_1di_sil.rs` |
| `Analog.v`  | `ur20_ai_ui_generic.rs`, `ur20_4ai_ui_16_diag.rs`, `ur20_8ai_i_16_diag_hd.rs`, `ur20_4ai_rtd_diag.rs`, `ur20_4ai_tc_diag.rs`, `ur20_4ao_ui_16.rs`, `ur20_4ao_ui_16_diag.rs` |
| `Fcnt.v`    | `ur20_2fcnt_100.rs` |
| `Com.v`     | `ur20_1com_232_485_422.rs` (codec, message processor, read/write) |
| `Fbc.v`     | `ur20_fbc_mod_tcp.rs` (coupler, image encoding and decoding, addresses) |
| `Generic.v` | `ur20_fbc_mod_tcp.rs` 26-54, 339-454: the public functions on process images for any implementation of the trait `ProcessModbusTcpData` |
| `Defaults.v` | `Default` implementations: the modules with default parameters |
| `ModelTests.v`, `ModelTests2.v` | the unit tests of the crate, evaluated on the model (tests, not proofs: they guard the reading of the code; every test module of the crate is represented) |

Model files contain definitions only, no proofs. Every definition cites file and
lines. Everything is a total computable Gallina function; panics are explicit
(`Panic reason`), and the build profile (`Debug`: arithmetic overflow panics,
`Release`: it wraps) is an argument wherever it can matter.

The files are layered: `Spec*.v` hold the specifications (what a reader needs to
understand a theorem), `Facts.v` and `Proofs*.v` the lemmas, and `Props*.v` only the
property theorems (`Cnn_...`), each closed by `exact`, with `Print Assumptions` under
it and an `Example` showing that a concrete case meets its hypotheses.

| theorems | specification | properties |
|---|---|---|
| `PropsCatalogue.v` | `SpecCatalogue.v`, `SpecAddr.v` | C01-C08 |
| `PropsParams.v` | `SpecParams.v` | C09-C12 |
| `PropsCodec.v` | `SpecCodec.v` | C13-C15, C23, C24, C26-C28 |
| `PropsSerial.v` | `SpecSerial.v` | C29-C35, C53 |
| `PropsRestart.v` | `SpecRestart.v` | C57, C58 |
| `PropsImage.v` | `SpecImage.v` | C40-C42, C51, C52 |
| `PropsCoupler.v` | `SpecCoupler.v` | C36-C39, C43-C47, C54 |
| `PropsSystem.v` | `SpecSystem.v` | C49, C50, C55, C56 |
| `PropsAnalog.v` | `SpecAnalog.v` | C16-C22, C25 |
| `PropsIdle.v` | `SpecIdle.v` | C48 |
| `PropsDrift.v` | `SpecDrift.v` | C48 (drift) |
| `PropsOutcome.v` | `SpecOutcome.v` | C59, C43 (exact) |
| `PropsStartup.v` | `SpecStartup.v` | C60 |
| `PropsShown.v` | `SpecShown.v` | C61, C62 |
| `PropsFeedback.v` | `SpecFeedback.v` | C63 |
| `PropsMemory.v` | `SpecMemory.v` | C64 |
| `PropsGlitch.v` | `SpecGlitch.v` | C65 |
| `PropsIsolation.v` | `SpecIsolation.v` | C66 |
| `PropsPlantRestart.v` | `SpecPlantRestart.v` | C67 |
| `PropsProfile.v` | `SpecProfile.v` | C68 |
| `PropsEffect.v` | `SpecEffect.v` | C44, C46 |
| `PropsMid.v` | `SpecImage.v`, `SpecCoupler.v` | C39 |
| `PropsExact.v` | `SpecExact.v` | C09, C12, C36, C51, C52 |
| `PropsFault.v` | `SpecFault.v` | C69 |
| `PropsKeep.v` | `SpecKeep.v` | C71 |
| `PropsSteady.v` | `SpecSteady.v` | C72 |
| `PropsBoot.v` | `SpecBoot.v` | C73 |
| `PropsStore.v` | `SpecStore.v` | C74 |
| `PropsDefault.v` | `SpecDefault.v` | C75 |
| `PropsErrors.v` | `SpecErrors.v` | C76 |
| `PropsResolution.v` | `SpecResolution.v` | C77 |
| `PropsShare.v` | `SpecShare.v` | C78 |
| `PropsRelevant.v` | `SpecRelevant.v` | C79 |
| `PropsEqual.v` | `SpecEqual.v` | C80 |
| `PropsLossless.v` | `SpecLossless.v` | C81 |
| `PropsHold.v` | `SpecHold.v` | C82 |
| `PropsTerminal.v` | `SpecTerminal.v` | C83 |
| `PropsProtocol.v` | `SpecProtocol.v` | C84 |
| `PropsWire.v` | `SpecWire.v` | C85 |
| `PropsLink.v` | `SpecLink.v` | C86 |
| `PropsMirror.v` | `SpecMirror.v` | C87 |
| `PropsFrequency.v` | `SpecFrequency.v` | C88 |
| `PropsStdio.v` | `SpecStdio.v` | C89 |
| `PropsSize.v` | `SpecSize.v` | C90 |
| `PropsRestore.v` | `SpecRestore.v` | C91 |
| `PropsKinds.v` | `SpecKinds.v` | C92 |
| `PropsBits.v` | `SpecBits.v` | C93 |
| `PropsDirect.v` | `SpecDirect.v` | C94 |
| `PropsGeneric.v` | `SpecGeneric.v` | C95 |
| `PropsDiagnosis.v` | `SpecDiagnosis.v` | C96 |
| `PropsTogether.v` | `SpecTogether.v` | C99 |
| `PropsInterrupt.v` | `SpecInterrupt.v` | C100 |
| `PropsTorn.v` | `SpecTorn.v` | C101 |
| `PropsOrdered.v` | `SpecOrdered.v` | C102 |
| `PropsEndure.v` | `SpecEndure.v` | C103 |
| `PropsRough.v` | `SpecRough.v` | C104 |
| `PropsSlow.v` | `SpecSlow.v` | C105 |
| `PropsFlush.v` | `SpecFlush.v` | C106 |
| `PropsDelay.v` | `SpecDelay.v` | C107 |
| `PropsThroughput.v` | `SpecThroughput.v` | C109 |
| `PropsFlow.v` | `SpecFlow.v` | C110 |
| `PropsCreep.v` | `SpecCreep.v` | C20 (further) |
| `PropsEveryCode.v` | `SpecEveryCode.v` | C111 |
| `PropsEveryOutput.v` | `SpecEveryOutput.v` | C112 |
| `PropsHandover.v` | `SpecHandover.v` | C113 |
| `PropsRelay.v` | `SpecRelay.v` | C114 |
| `PropsHandles.v` | `SpecHandles.v` | C115 |
| `PropsChain.v` | `SpecChain.v` | C116 |
| `PropsRow.v` | `SpecRow.v` | C117 |
| `PropsSetup.v` | `SpecSetup.v` | C118 |
| `PropsRepeater.v` | `SpecRepeater.v` | C119 |
| `PropsMachine.v` | `SpecMachine.v` | C120 |
| `PropsController.v` | `SpecController.v` | C121 |
| `PropsOutage.v` | `SpecOutage.v` | C122 |
| `PropsNetwork.v` | `SpecNetwork.v` | C123 |
| `PropsFaults.v` | `SpecFaults.v` | C124 |

## Conventions and simplifications

* `u8`, `u16`, `u32`, `u64`, `usize` values are `Z`; theorems carry the range
  hypotheses (`Forall is_u16 data`) where they matter. `usize` is 64 bit.
* Vectors and slices are lists; indexing out of bounds is `Panic IndexOutOfBounds`.
* `f32` is `spec_float` with precision 24: one NaN (payload and sign of NaN are
  not modelled; the code never observes them).
* `HashMap` is an association list. Iteration order is an explicit argument of
  `next` (any permutation), and its irrelevance is a theorem (C47).
* `str::to_uppercase` on non-ASCII characters is an explicit argument (any function);
  on ASCII it is the ASCII upper case.
* `io::Write::write_all` on the message processor is modelled as one call of
  `write`, which always accepts everything (the std loop ends after one call, C89).
  `flush` does nothing and has no model.
* Derived `==` of channel values is specified as `same_value` (SpecResolution.v) where a
  property is about it (C80). Not modelled: the other derives (`Debug`, `Clone`), memory allocation failure,
  the text of panic messages.

## How each property is approached

Status words: *proved* (full statement), *partial* (what is missing is said in
MANIFEST.json), *refuted* (the unchanged code violates the statement: a
`_refuted` theorem gives a witness, and a `_partial` theorem proves the part
that holds).

| id | approach |
|---|---|
| C01 | table lookup for every `Z`; inverse table as specification; case analysis over types |
| C02 | induction over the list of modules; failure by decomposition of the list |
| C03 | names as code point lists; specification by name table; for all strings and all non-ASCII upper-casings |
| C04 | refuted: "PF" does not parse; the rest proved over all strings |
| C05 | specification parses the digits of the name; case analysis over the 63 types |
| C06 | arithmetic on `Z` bit operations for all 16-bit values; collision witness |
| C07 | induction over pairs |
| C08 | induction over the list with index; profile split |
| C09 | specification: a table of upper bounds per register; refuted for the thermocouple module (panic with 36 or more registers), proved for all others |
| C10 | specification: encoder from parameter structures to registers using documented code lists |
| C11 | recursive specification over the configuration; left to right |
| C12 | refuted for UR20_4AI_UI_16 (reports UR20_4AI_UI_12); proved for all others |
| C13-C15 | `Z.testbit` extensionality, induction over channels |
| C16 | real-number specification through Flocq's rounding theorems, exactness of the integer product |
| C17 | monotonicity of rounding (Flocq), case analysis on special values |
| C18 | relative error analysis in R |
| C19 | the factor of format S5 is a power of two, so every float operation of the round trip is exact (Flocq, in R) |
| C20 | refuted with witness; a rounding argument bounds one step; for the ranges that begin at zero the three roundings are computed exactly (the remainder of the scaled code modulo 27 decides), which gives the set of codes that move; for the ranges with an offset a code that moves leaves a remainder from 1 to 20 modulo 27; six codes in a row cannot all do so, hence the bound of 5 |
| C21-C22 | as C16 |
| C23-C24 | arithmetic on `Z` |
| C25 | relative error analysis in R |
| C26-C28 | bit level lemmas, list reasoning |
| C29-C32 | induction over histories of the message processor |
| C33-C35 | transition system host + device, invariant by induction over schedules; C35 refuted during initialisation |
| C36 | invariant over reachable couplers; refuted for UR20_PF_O_1DI_SIL |
| C37-C39 | invariant over reachable couplers and a normal form of `next` |
| C40-C42 | functional specification of the image; C40 refuted for overlaps inside a register, C42 for multi-byte modules there |
| C43 | refuted in debug builds (output offset below register 0x0800); proved otherwise; the exact condition for a panic and the state after it are proved |
| C44-C46 | refuted with witnesses; what is kept is proved |
| C47 | permutation invariance |
| C48 | refuted by C20; proved for all other modules by an invariant over idle cycles (the data of a module differs from its encoding only in bytes that a later module overwrites); for S7 the registers of a module are the n-fold readback of C20 |
| C49 | refuted for outputs() (one shared counter); proved for data streams |
| C50 | refinement of C33 through the image codec |
| C51-C52 | refuted with witnesses; characterised |
| C53 | as C33-C35: an invariant of the host + device system, measured by what the host has read |
| C54 | normal form of `next`: one lemma describing what a cycle does to one module |
| C55-C56 | refinement of C35/C53 and C34 through the image codec and the coupler, for a module among any others |
| C57 | invariant of the host + device system extended by a phase in which a segment of an earlier program is unacknowledged; induction over programs |
| C58 | invariant of C35 from every state a stopped program can leave behind |
| C59 | equivalences per stage (slice, decode, override, encode, layout), composed through the normal form of `next` |
| C60 | the registers are a function from addresses; composition of C02 and C07-C11 |
| C61 | invariant: the stored last message is the last one of the history; induction over the histories and over the modules of a cycle |
| C62 | balance of bytes kept by every call, from the rule of C61 and the balance of the serial protocol (C40) |
| C63 | C38, C42 and C54 give the decoded row from the encoded one; then one argument per kind of module (C14, C16-C19, C23) |
| C64 | simulation: the relation is kept by every call; for cycles from the normal form of next |
| C65 | removal of the disturbed calls by induction over the history; encoding never answers BufferLength |
| C66 | project both runs to the calls and answers of the module; double induction over the two runs; per-cycle determinism of module_cycle, with the bytes connected by the C42 lemmas |
| C67 | simulation of the plant by the host + device system (C50) extended to restarts; the written bytes of each program equal those of the simulating schedule; then C57 and C58 |
| C68 | a relation between the outcomes of the two build profiles (equal, or the debug build overflowed) is carried through every function that depends on the profile, then through cycles and histories; C43 and C59 discharge the overflow case |
| C69 | Plant of C50 with two more kinds of steps (a cycle failing with BufferLength, reading back the output image). Simulated by the host/module system of C33 with a read-back step; the invariant keeps the bytes not lost as a subsequence of those written, with a count. |
| C70 | As C69; the invariant of C35 with separate indices for the acknowledgement in the image and the segment fetched last. |
| C71 | Induction over the actions of the loop with, per channel, the pending value, the value in force in the image and the value shown; one cycle by C39 and C63. |
| C72 | What a module reads from the returned image is, up to the last byte, what it encoded (layout lemmas of C48), so it can be decoded and encoded again; the rest is C59. |
| C73 | Build the rack the registers show, decide slot by slot whether it is supported, misconfigured or without support, and use C08, C09 and C11 for the first slot that is not supported. |
| C74 | Invariant: no duplicate keys in the two maps, no empty chunk; count the valid addresses; one-step bounds from module_cycle, summed by induction over the history. |
| C75 | Registers computed from the default parameters; case analysis over the module types; the rest follows from the disabled range in each decoder. |
| C76 | Errors traced through the closed forms of each function; for cycles the invariant of reachable couplers rules out the errors of message encoding. |
| C77 | Each channel has a linear scale; every shown number is within a quarter of a step of its position (from the rounding bounds of C16, C21, C22 and Flocq), so order and distinctness follow; comparison of f32 through Flocq's Bcompare. |
| C78 | Each pair of independent calls commutes up to couplers that cannot be told apart; couplers that cannot be told apart follow each other through every run; induction over the reordering and over the schedule. |
| C79 | The rows of values of each module depend on its bytes (as C41, also for outputs), so both cycles do the same; induction over the calls with couplers that cannot be told apart. |
| C80 | Numbers: only one register content per range gives a value equal to 0 (order and resolution, C77), and that one gives +0; otherwise equal reals are equal floats. Invariant over all reachable couplers that every shown number is such. |
| C81 | Per module: digital and status bits by extensionality, analog values by the resolution of the conversions (C77), counters by the injectivity of the period and preset conversions, serial messages by the message codec (C27). |
| C82 | Invariant per channel over all actions of the loop: the register is an iterate of the read-back-and-send map on the code of the request in force; iterates are bounded as in C20. |
| C83 | Compose the slices of C40/C81 with the decoders of C13, C15, C16, C21, C22 and C24; only the registers of the module matter. |
| C84 | Invariant over all histories that ties the state of the processor to the recorded streams; one cycle by case distinction over the initialisation. |
| C85 | The sent row is the requested values over the values read back; its encoding fills the registers of the module (C40, C42); then C14, C17, C18 (extended to the ends of the codes) and C23 for one row. |
| C86 | Each side is a run of the plant of C50, C55 and C56; the line invariant says that the receiving module has offered a beginning of what the sending one has taken over; then C50 for the sender and C55, C56 for the receiver. |
| C87 | The register of the input determines the shown value (C83), the requested value the register of the output (C85); the round trip of one code is that of C19 and C20, and for different formats the errors of C16 and C18 add up. |
| C88 | The registers determine the counter value (C83) and its frequency up to rounding (C25); every one of the rounded operations is monotonic, and the seconds are exact up to 2^24. |
| C89 | Inductive definitions of the loops; every run is computed by induction over its derivation, and runs exist for all sizes. |
| C90 | Length of the image by induction over the layout of C40; the modules never change (induction over the history); lower bound of the image read back from the exact condition of C59. |
| C91 | The rows sent for all modules but serial ones are equal in both cycles, so the same data are laid out; serial modules have data of the same length. Success by C59; the values shown again by the lemma behind C63. |
| C92 | Invariant over all reachable couplers; for decoded rows it follows from the physical values of C83, for serial modules from the message layout. |
| C93 | Each byte of the image belongs to the last module that claims it (C40); the bits of the encoded data of every module are bounded by C14, C17, C23 and C26. |
| C94 | Invariant over the history (queue segments not empty and short enough, last receive counter), with the exact outcome of inc_cnt on usize. |
| C95 | The three functions over a record of trait methods; exact characterisation of the words given to a module, of the first failure, and of the layout (the layout lemmas of C40). |
| C96 | Exact error of one row (C59), first failure of a traversal, and an induction over the output loop that relates the length of the image to the packing of the modules so far. |
| C97 | `PropsContract.v`: case analysis over the modules with the per-module lemmas of C13, C14, C23, C26, C27 and C59; the numbers of registers come from the data sheets (`SpecContract.v`) |
| C98 | `PropsTraffic.v`: an exchange is a cycle on the registers read followed by a write of the image; the image is never longer than the registers read (C90), so writes stay in the area; induction over the history; start-up depends on the rack alone (C60, C73); the register contents follow from C83, C85 and the layout of the image (C59, C90) |
| C99 | a family of couplers indexed by program and one register file; a board per channel (requests waiting per program, value in force) is followed through the history; invariant by induction: every coupler has the first rack (start-up depends on the rack alone, C98), its waiting request is the board's, and the registers carry the value in force (C39, C82, C83, C85 for one exchange) |
| C100 | registers as a function, an interrupted write as any function that agrees with the old or the new registers at each address; invariant by induction over the history: the registers stay ready (the image of a successful cycle is, C72, and so is every mixture of ready registers, because the length of a serial message lies in one register and a preset is in range exactly when its upper register is at most 127), each waiting request has been asked for, each channel's register comes from the beginning or a request (C99 for one exchange) |
| C101 | An input image whose registers each come from one of several snapshots; locality of each decoder (a channel depends on one register) and the exact success condition of C59 transferred from the snapshots to the mixture. |
| C102 | An interrupted write that keeps the order shows the module either the complete old or the complete new message (same header with other data bytes counts as the old one, because the module ignores the data of a message it has acknowledged); every history is therefore simulated by one of C69, and the invariants of ProofsFault.v apply. |
| C103 | Histories are simulated by a message processor with ordinary events and reading back; invariant by induction: either the segment of an earlier program is still unacknowledged and the new program sends nothing (C57), or the invariant of C69 holds for what was taken since; both are kept by every event, and what a program leaves behind determines what may arrive late. |
| C104 | Each side is a history of C102; the line invariant of C86 is shown to be kept by disturbed and torn steps as well; then C102 transmission for the sender and C102 reception (exact and progress) for the receiver. |
| C105 | A slow read is simulated by a read at the moment the first register was read, with other data; the data are irrelevant to the transmission invariant, and for reception either the module cannot change them (not acknowledged) or the counter says that they have been fetched. |
| C106 | SpecFlush.v puts transmit and receive buffers around the disturbed plant of C69. Invariant of the processor: before two cycles nothing is taken over and the transmit counter is unchanged; afterwards the computed image has the flags cleared and the register either has them cleared too or still carries the old counter, so that nothing has been taken over. |
| C107 | A plant with two queues of images; invariant: along the chain latch, input queue, module, register, output queue the transmit counters switch at most once from the previous to the current value, and the images with the current value carry the current segment. |
| C108 | The receive counters switch at most once along register, output queue, image, latch and input queue; every input image under way presents the segment its counter stands for. |
| C109 | exact bookkeeping of the segments not yet taken over in the transition system of C50 and C56; invariant that each has 1 to 6 (14) bytes; bound by induction over the history |
| C110 | the acknowledgement travels from the input image over the cycle to the registers unless the module has offered a segment meanwhile; the number of segments offered is within one of the number acknowledged by the computed image (invariant of C35), which grows by at most one in a cycle |
| C111 | the three roundings of the conversion shift the code by less than a hundredth of a step (C18), so truncation gives the code; a value in the middle of the step is constructed with correctly rounded operations and its error bounded; C39 for the wire |
| C112 | one request for each channel, constructed from the wanted registers (for analog channels the value of C111); C59 for the success of the cycle, C85 and C111 for the registers |
| C113 | A simulation between a coupler whose bytes wait in a request and one whose bytes wait in the queue; it is preserved by all calls and becomes equality at the first cycle that decodes its images. |
| C114 | a history of the relay is a history of each plant (C50, C55, C56); invariant: bytes read = bytes written to the other module and bytes held |
| C115 | invariant of the table of processors; case analysis of reads and writes |
| C116 | a history of the row is a history of each program (C56, C114); each line carries what was taken over at its start (C86); the accounts are put one after the other |
| C117 | a history of the row is a history of each program (C56, C114); every line carries what was taken over at its start; induction over the row |
| C118 | code functions of the enumerations are inverse to the variant lists; the registers of a module decode to it; conversely C10 and wrapping of limits |
| C119 | conversion between formats is monotone and exact on the multiples; induction over the row; C20 for equal formats |
| C120 | induction over the rounds: C71 for the outputs of a round, C83 for the inputs, C85 for no pending requests, C72 for the next round |
| C121 | induction over the rounds: the tracking invariant of C71 for pending requests, C85 for the outputs, C83 for the inputs, C72 for the next round |
| C122 | the rounds of C120 with any image between the old and the new one; a digital output is in one register |
| C123 | simulation: each round of a station is a round of its machine (C120); a connected input has the bit of the output register |
| C124 | simulation as in C123, with the partial images of C122 |

The statements as finally proved, what is missing and the theorem names are in
MANIFEST.json. The first plan proved C19 and C20 by evaluating all 65536 codes; this was
too slow and was replaced by the arguments above.

## Violations found

The unchanged code violates these properties; each has a `_refuted` theorem with a witness.

* C04 `"PF"` is not a category name; relay modules are classified DO.
* C09 the thermocouple module panics when given 36 or more parameter registers;
  UR20_16DO_P and UR20_PF_O_1DI_SIL reject any parameter register.
* C12 UR20_4AI_UI_16 reports UR20_4AI_UI_12 (`ur20_ai_ui_generic.rs` 95-99).
* C20, C48 an S7 analog output drifts towards zero when it is read back and rewritten by
  `next` (0..20 mA: 1387, 1386, 1385).
* C35 a segment received during initialisation is acknowledged and thrown away.
* C36 UR20_PF_O_1DI_SIL has no channels but one value in `inputs()`.
* C39, C42 a module with more than one byte in the middle of a register loses data.
* C40 overlapping modules in the middle of a register are accepted.
* C43 an output offset below register 0x0800 underflows (`prepare_raw_data_to_process`).
* C44, C45 a failing cycle changes `inputs()` and loses requests and serial data.
* C46 requests for input modules and non-byte values for serial modules vanish silently.
* C49 `outputs()` of a serial module depends on other serial modules (`last_tx_cnt` is shared).
* C51 a module without output data at a bit-8 output offset panics (`buf[0]`).
* C52 analog output modules with too few channel parameters panic.

## Tests against wrong programs

`seeded/LOG.jsonl` records edits of the model in a scratch copy. For each edit every proof
that no longer goes through is replaced by `Admitted` in the scratch copy, the rest is
rebuilt, and `Print Assumptions` tells which property theorems depend on a failed lemma.

## Trusted base

* Coq 8.16.1's kernel. `vm_compute` is used for concrete examples and witnesses and a few
  finite case analyses; `coqchk` rechecks them without the VM.
* The reading of the Rust code in the model files (they cite file and lines), the
  conventions and simplifications above, and the specifications in `Spec*.v`.
* What `Print Assumptions` lists. All property theorems are "Closed under the global
  context", except those about real numbers: C16_analog_value, C17_analog_encoding,
  C18_analog_accuracy, C19_readback_S5, C20_readback_S7_partial, C20_which_codes_move_partial, C20_when_a_code_moves_partial, C21_rtd_value,
  C22_tc_value, C25_hertz, C48_idle_stable_partial, C48_idle_succeeds, C48_idle_drift, C63_feedback,
  C71_last_request_kept, C71_last_request_shown, C72_loop_goes_on and C72_loop_recovers, C77_order, C77_number, C77_readback_order, C77_change, C77_cached_change,
  C80_values, C80_tables, C80_numbers, C81_inputs, C81_outputs, C81_shown_inputs, C81_shown_outputs,
  C82_analog_kept, C82_physical_value, C83_inputs, C83_outputs, C85_wire, C87_copy, C88_frequency,
  C88_frequency_order, C88_hertz_order,
  C91_restore, C91_shown_again, C92_inputs, C92_outputs, C98_inputs, C98_outputs, C99_analog, C99_counter, C99_seen,
  C100_never_stuck, C100_ready, C100_analog, C100_counter, C101_counter,
  C111_inside_a_step, C111_every_code, C111_on_the_wire, C112_every_output, C112_presets,
  C119_bits, C119_codes, C119_value, C120_program, C120_goes_on, C121_program, C121_goes_on, C122_copes, C122_goes_on, C123_network, C123_goes_on, C124_network_copes, C124_goes_on. They depend on the
  axioms of the standard library's real numbers:
  `ClassicalDedekindReals.sig_not_dec`, `ClassicalDedekindReals.sig_forall_dec`,
  `FunctionalExtensionality.functional_extensionality_dep` and `Classical_Prop.classic`.
* `coqchk -o` moreover lists constants that the loaded standard library modules seal behind
  module types. They have definitions in the library and no theorem lists them:
  `Coq.Reals.Rdefinitions.RbaseSymbolsImpl.` `R`, `R0`, `R1`, `Rplus`, `Rmult`, `Ropp`, `Rlt`,
  `Rabst`, `Rrepr`, `Rquot1`, `Rquot2`, `R0_def`, `R1_def`, `Rplus_def`, `Rmult_def`,
  `Ropp_def`, `Rlt_def`; `Coq.Reals.Rdefinitions.RinvImpl.` `Rinv`, `Rinv_def`;
  `Coq.ssr.ssrunder.Under_rel.` `Under_rel`, `Under_rel_from_rel`, `Under_relE`, `Over_rel`,
  `over_rel`, `over_rel_done`, `under_rel_done`.
* No axiom, parameter or section-less variable is declared in `rocq/theories`.

Libraries: the standard library, and Flocq for the theorems about floating-point numbers
(no axiom of Flocq appears in the lists above).

Modelled: all non-test code of `src/` that computes something. Not modelled: derives
(`Debug`, `Clone`, `PartialEq` except for C80, and `ToPrimitive`, which C118 specifies as giving the number written behind the variant), allocation failure, panic messages, the payload of NaNs, Modbus communication itself (the crate
does no I/O; C60 specifies a client that reads registers), documentation.
