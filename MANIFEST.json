{
 "claims": [
  {
   "property": "C01",
   "status": "proved",
   "theorems": [
    "C01_module_ids"
   ],
   "note": "for every integer identifier; the identifier table of the specification is indexed by type"
  },
  {
   "property": "C02",
   "status": "proved",
   "theorems": [
    "C02_module_list"
   ],
   "note": "all register lists; characterises success, both errors, and the absence of panics"
  },
  {
   "property": "C03",
   "status": "proved",
   "theorems": [
    "C03_module_names"
   ],
   "note": "all strings of code points, any Unicode upper-casing table for non-ASCII characters"
  },
  {
   "property": "C04",
   "status": "partial",
   "theorems": [
    "C04_categories_refuted",
    "C04_categories_partial"
   ],
   "note": "REFUTED as stated: \"PF\" does not parse although power feed modules have category PF, and relay modules are classified DO, so no module has category RO. Proved: everything else."
  },
  {
   "property": "C05",
   "status": "proved",
   "theorems": [
    "C05_channel_counts"
   ],
   "note": "all 63 module types, number parsed from the product name"
  },
  {
   "property": "C06",
   "status": "proved",
   "theorems": [
    "C06_bit_addresses"
   ],
   "note": "all 16 bit addresses; all register/bit pairs"
  },
  {
   "property": "C07",
   "status": "proved",
   "theorems": [
    "C07_offset_table"
   ],
   "note": "offset tables of any length"
  },
  {
   "property": "C08",
   "status": "proved",
   "theorems": [
    "C08_param_windows"
   ],
   "note": "module lists of any length; both build profiles"
  },
  {
   "property": "C09",
   "status": "partial",
   "theorems": [
    "C09_thermocouple_exact",
    "C09_param_acceptance_refuted",
    "C09_param_acceptance_partial"
   ],
   "note": "REFUTED as stated: 36 or more in-range registers make the thermocouple module panic (expect on a [_;4] conversion), and UR20_16DO_P / UR20_PF_O_1DI_SIL reject any register with BufferLength. Proved: all other cases for all register lists of any length, including that extra registers are ignored. C09_thermocouple_exact: which lists of 36 or more registers make the thermocouple module panic."
  },
  {
   "property": "C10",
   "status": "proved",
   "theorems": [
    "C10_param_fidelity"
   ],
   "note": "all supported types, all accepted register lists; the analog output substitute value is related to its register through the decoding function characterised by C16"
  },
  {
   "property": "C11",
   "status": "proved",
   "theorems": [
    "C11_coupler_new"
   ],
   "note": "configurations of any size; first failing module decides; includes the created serial processors"
  },
  {
   "property": "C12",
   "status": "partial",
   "theorems": [
    "C12_reported_type",
    "C12_module_type_refuted",
    "C12_module_type_partial"
   ],
   "note": "REFUTED as stated: UR20_4AI_UI_16 reports UR20_4AI_UI_12. Proved for every other type. C12_reported_type: the reported type of every module, including that one."
  },
  {
   "property": "C13",
   "status": "proved",
   "theorems": [
    "C13_digital_decode"
   ],
   "note": "all digital input and output modules, all words and register lists"
  },
  {
   "property": "C14",
   "status": "proved",
   "theorems": [
    "C14_digital_encode"
   ],
   "note": "all digital output modules and all lists of channel values"
  },
  {
   "property": "C15",
   "status": "proved",
   "theorems": [
    "C15_safe_power_feed"
   ],
   "note": "all words"
  },
  {
   "property": "C16",
   "status": "proved",
   "theorems": [
    "C16_analog_value",
    "C16_analog_values_exist"
   ],
   "note": "all codes, ranges, formats and analog modules; nearest f32 in the sense of round to nearest even; total"
  },
  {
   "property": "C17",
   "status": "proved",
   "theorems": [
    "C17_analog_encoding"
   ],
   "note": "all f32 values (validity of the binary32 encoding is the only hypothesis); both output modules"
  },
  {
   "property": "C18",
   "status": "proved",
   "theorems": [
    "C18_analog_accuracy"
   ],
   "note": "all finite f32 values whose exact code is within i16"
  },
  {
   "property": "C19",
   "status": "proved",
   "theorems": [
    "C19_readback_S5"
   ],
   "note": "all codes and ranges of both output modules; proved by exactness of each floating point step, no enumeration"
  },
  {
   "property": "C20",
   "status": "partial",
   "theorems": [
    "C20_readback_S7_partial",
    "C20_refuted",
    "C20_which_codes_move_partial",
    "C20_when_a_code_moves_partial"
   ],
   "note": "REFUTED as stated: code 45 on a 0-20 mA channel with format S7 is sent back as 44. Proved: any number of repetitions moves a code only towards zero, by at most 1 per step, never past a multiple of 27, by at most 5 in all, and it is stable after 5 steps. C20_which_codes_move_partial: on the ranges that begin at zero (and the symmetric ones) exactly which codes move. C20_when_a_code_moves_partial: on every range, exactly which codes move, in terms of the value read back."
  },
  {
   "property": "C21",
   "status": "proved",
   "theorems": [
    "C21_rtd_value"
   ],
   "note": "all codes and ranges, every unit"
  },
  {
   "property": "C22",
   "status": "proved",
   "theorems": [
    "C22_tc_value"
   ],
   "note": "all codes and ranges, every unit"
  },
  {
   "property": "C23",
   "status": "proved",
   "theorems": [
    "C23_counter_presets"
   ],
   "note": "all durations (u64 seconds, nanoseconds < 10^9), commands, lists of values; both build profiles. A preset is rejected exactly when it is above 8.388607 s in nanoseconds."
  },
  {
   "property": "C24",
   "status": "proved",
   "theorems": [
    "C24_counter_inputs"
   ],
   "note": "all register lists"
  },
  {
   "property": "C25",
   "status": "proved",
   "theorems": [
    "C25_hertz"
   ],
   "note": "all u32 counts and all durations (u64 seconds); also states the result for a zero period: infinity, or NaN for count 0"
  },
  {
   "property": "C26",
   "status": "proved",
   "theorems": [
    "C26_serial_roundtrip"
   ],
   "note": "all messages; also at the level of the module (16 bit words)"
  },
  {
   "property": "C27",
   "status": "proved",
   "theorems": [
    "C27_serial_decode"
   ],
   "note": "all byte strings of any length"
  },
  {
   "property": "C28",
   "status": "proved",
   "theorems": [
    "C28_serial_canonical"
   ],
   "note": "all images of the size of the module, bytes and words"
  },
  {
   "property": "C29",
   "status": "proved",
   "theorems": [
    "C29_init_sequence"
   ],
   "note": "all histories of writes, reads and cycles with arbitrary messages"
  },
  {
   "property": "C30",
   "status": "proved",
   "theorems": [
    "C30_write_chunks"
   ],
   "note": "all byte strings and processors; also all histories of writes"
  },
  {
   "property": "C31",
   "status": "proved",
   "theorems": [
    "C31_read_fifo"
   ],
   "note": "all histories; reception is specified as a function of the observed cycles"
  },
  {
   "property": "C32",
   "status": "proved",
   "theorems": [
    "C32_always_encodable"
   ],
   "note": "all histories whose cycles get decoded process data; decoded process data is shown to satisfy the hypothesis"
  },
  {
   "property": "C33",
   "status": "proved",
   "theorems": [
    "C33_transmit_exactly_once"
   ],
   "note": "all schedules of any length of a transition system in which host read, cycle, write and the device steps are separate; never panics in either profile"
  },
  {
   "property": "C34",
   "status": "proved",
   "theorems": [
    "C34_transmit_progress"
   ],
   "note": "all fair schedules (arbitrary events interleaved); k rounds deliver k segments"
  },
  {
   "property": "C35",
   "status": "partial",
   "theorems": [
    "C35_receive_exactly_once_refuted",
    "C35_receive_exactly_once_partial"
   ],
   "note": "REFUTED as stated: a segment offered while the processor is initialising is acknowledged but discarded (witness schedule). Proved: for all schedules after the second cycle nothing is lost, duplicated or reordered; only segments offered before can be missing; with none offered before, the property holds exactly."
  },
  {
   "property": "C36",
   "status": "partial",
   "theorems": [
    "C36_shapes_partial",
    "C36_shapes_refuted",
    "C36_power_feed_row"
   ],
   "note": "REFUTED as stated: UR20_PF_O_1DI_SIL has no channel but one value in inputs(). Proved: everything else, all histories, also after failing cycles. C36_power_feed_row: the length of that row."
  },
  {
   "property": "C37",
   "status": "proved",
   "theorems": [
    "C37_requests",
    "C37_requests_same"
   ],
   "note": "every coupler and every list of requests; commuting and overwriting requests leave indistinguishable couplers (with C47)"
  },
  {
   "property": "C38",
   "status": "proved",
   "theorems": [
    "C38_writes"
   ],
   "note": "all reachable couplers, images and request sets; the position of the encoded data in the image is the subject of C40 and C42"
  },
  {
   "property": "C39",
   "status": "partial",
   "theorems": [
    "C39_digital_output_partial",
    "C39_refuted_wide",
    "C39_refuted_overlap",
    "C39_mid_register_partial"
   ],
   "note": "REFUTED as stated: channels 8-15 of a 16 channel module in the middle of a register are not transmitted, and an overlapping module wins silently (witnesses). Proved: all modules on register boundaries or with at most 8 channels whose bytes no later module claims, in any mix of modules and history. C39_mid_register_partial: the first eight channels of a 16 channel module in the middle of a register, and that the others read back as off."
  },
  {
   "property": "C40",
   "status": "partial",
   "theorems": [
    "C40_image_layout_partial",
    "C40_image_exists",
    "C40_image_concat",
    "C40_image_errors",
    "C40_refuted"
   ],
   "note": "REFUTED as stated: an overlap in the middle of a register is accepted (two modules at the same bit-8 offset, or one over the last high byte of a larger module) and the earlier module's byte is lost. Proved: exact condition for the image to exist (tiling), every byte not claimed by a later module is the module's own, no gaps, order and disjointness of register-aligned modules, closed form without shared registers, complete error classification; any module list, offsets and values."
  },
  {
   "property": "C41",
   "status": "proved",
   "theorems": [
    "C41_input_isolation"
   ],
   "note": "any two module lists and images; only the module's own bytes matter, for every module type"
  },
  {
   "property": "C42",
   "status": "partial",
   "theorems": [
    "C42_input_bytes_partial",
    "C42_readback_bytes_partial",
    "C42_output_bytes_partial",
    "C42_refuted_input",
    "C42_refuted_output",
    "C42_input_shifted",
    "C42_readback_shifted"
   ],
   "note": "REFUTED as stated: a module of more than one byte at bit 8 is decoded with a zero for its last byte and only its first byte is encoded. Proved: register-aligned modules of every size and one-byte modules at either byte, for inputs, readback and encoding. The exact decoding of larger modules at bit 8 (all bytes but the last, and a zero byte) is proved as well."
  },
  {
   "property": "C43",
   "status": "partial",
   "theorems": [
    "C43_no_panic_partial",
    "C43_no_panic_refuted",
    "C43_panic_exactly",
    "C43_panic_state"
   ],
   "note": "REFUTED as stated: an output offset below register 0x0800 overflows in debug builds. Proved: release builds always, debug builds whenever all output offsets are at or above register 0x0800. Also proved: the exact condition for a panic in debug builds, and what the coupler looks like afterwards."
  },
  {
   "property": "C44",
   "status": "partial",
   "theorems": [
    "C44_failed_cycle_partial",
    "C44_refuted_inputs",
    "C44_refuted_requests",
    "C44_refuted_serial",
    "C44_failed_cycle_effect"
   ],
   "note": "REFUTED as stated: a failing cycle may change inputs(), drop all requests and drop serial data (witnesses). Proved: what each kind of failure leaves unchanged (undecodable input: everything; undecodable output: everything but inputs()). C44_failed_cycle_effect: when both images decode, a failing cycle leaves exactly the coupler a cycle with other requests leaves."
  },
  {
   "property": "C45",
   "status": "partial",
   "theorems": [
    "C45_rejected_request_partial",
    "C45_refuted",
    "C45_refuted_serial"
   ],
   "note": "REFUTED as stated: a rejected request makes the cycle fail and drops valid requests and a dequeued serial segment (witnesses). Proved: which requests a cycle answers, that a wrong kind of value makes it fail, and that serial queues only lose at most one segment from the front."
  },
  {
   "property": "C46",
   "status": "partial",
   "theorems": [
    "C46_accepted_request_partial",
    "C46_refuted_input",
    "C46_refuted_serial",
    "C46_ignored_request",
    "C46_ignored_forever"
   ],
   "note": "REFUTED as stated: requests for input modules and non-byte values for serial modules are dropped silently (witnesses). Proved: values for output modules with an output offset are encoded into the data of the module or the cycle fails; byte strings for serial modules with both offsets are appended to the queue. C46_ignored_request, C46_ignored_forever: exactly which requests are accepted and ignored, and that no later call notices them."
  },
  {
   "property": "C47",
   "status": "proved",
   "theorems": [
    "C47_iteration_order"
   ],
   "note": "every iteration order, including all later behaviour (bisimulation over all call sequences)"
  },
  {
   "property": "C48",
   "status": "partial",
   "theorems": [
    "C48_idle_drift",
    "C48_refuted",
    "C48_idle_stable_partial",
    "C48_idle_succeeds"
   ],
   "note": "REFUTED as stated: an unwritten analog output in format S7 drifts (C48_refuted: register 1387 of a 0..20 mA output is returned as 1386 and then 1385). Proved (C48_idle_stable_partial): with all analog outputs in format S5 or disabled, every image of any number of idle cycles of every reachable coupler equals the first one, for every mix of modules and every layout including modules in the middle of a register. C48_idle_succeeds: idle cycles do not fail. C48_idle_drift: with format S7, if no other output lies inside the bytes of such modules, only registers of S7 channels change, they move towards zero by at most 5 over any number of idle cycles, and from the fifth idle cycle on all images are the same. Missing: that S7 registers do not move at all, which is false."
  },
  {
   "property": "C49",
   "status": "partial",
   "theorems": [
    "C49_serial_isolation_partial",
    "C49_refuted"
   ],
   "note": "REFUTED as stated: what outputs() shows for a serial module depends on another one's process data (shared last_tx_cnt). Proved: bytes sent and received, answers of all calls, row of inputs() and part of the image depend only on the module's own data, for two arbitrary couplers and histories of successful cycles."
  },
  {
   "property": "C50",
   "status": "proved",
   "theorems": [
    "C50_serial_transmission"
   ],
   "note": "all histories of a transition system of program, coupler and serial module; other modules arbitrary"
  },
  {
   "property": "C51",
   "status": "partial",
   "theorems": [
    "C51_panic_exact",
    "C51_encode_no_panic_partial",
    "C51_refuted"
   ],
   "note": "REFUTED as stated: a module without output data at a bit-8 output offset makes process_output_values panic (buf[0] of an empty buffer). Proved: no panic in all other cases, any module list, offsets and values, both profiles. C51_panic_exact: exactly when it panics."
  },
  {
   "property": "C52",
   "status": "partial",
   "theorems": [
    "C52_panic_exact",
    "C52_module_no_panic_partial",
    "C52_refuted"
   ],
   "note": "REFUTED as stated: UR20_4AO_UI_16 and UR20_4AO_UI_16_DIAG with fewer than 4 channel parameters panic in process_output_data for 4 words. Proved: everything else for every module value and data. C52_panic_exact: exactly when it panics."
  },
  {
   "property": "C53",
   "status": "proved",
   "theorems": [
    "C53_receive_progress"
   ],
   "note": "all schedules"
  },
  {
   "property": "C54",
   "status": "proved",
   "theorems": [
    "C54_shown_values"
   ],
   "note": "all reachable couplers and images"
  },
  {
   "property": "C55",
   "status": "proved",
   "theorems": [
    "C55_serial_reception"
   ],
   "note": "all histories of the same transition system"
  },
  {
   "property": "C56",
   "status": "proved",
   "theorems": [
    "C56_serial_progress"
   ],
   "note": "all histories of the same transition system"
  },
  {
   "property": "C57",
   "status": "proved",
   "theorems": [
    "C57_restart_transmission",
    "C57_restart_progress"
   ],
   "note": "C57_restart_transmission (safety, any number of programs), C57_restart_progress (all bytes of the running program are taken over after two more fair rounds than segments). The module ignores the flush and reset flags, as in C33."
  },
  {
   "property": "C58",
   "status": "proved",
   "theorems": [
    "C58_restart_reception",
    "C58_restart_reception_progress"
   ],
   "note": "C58_restart_reception, C58_restart_reception_progress. Segments offered before the first two cycles may be lost (C35)."
  },
  {
   "property": "C59",
   "status": "proved",
   "theorems": [
    "C59_cycle_succeeds",
    "C59_cycle_errors",
    "C59_decodable"
   ],
   "note": "C59_decodable relates reading to the decoding functions process_input_data and process_output_data used in the statements of other properties. C59_cycle_succeeds is the equivalence (in debug builds 'not Ok' includes the panic of C43); C59_cycle_errors gives the error kinds for every output image that fits into the register space (at most 0xF800 registers)."
  },
  {
   "property": "C60",
   "status": "proved",
   "theorems": [
    "C60_start_up",
    "C60_unsupported_module"
   ],
   "note": "Composition of C02, C07, C08, C09, C10 and C11 for a client that reads registers; the client itself is part of the specification (the crate does no I/O)."
  },
  {
   "property": "C61",
   "status": "proved",
   "theorems": [
    "C61_shown_messages"
   ],
   "note": ""
  },
  {
   "property": "C62",
   "status": "proved",
   "theorems": [
    "C62_shown_once"
   ],
   "note": ""
  },
  {
   "property": "C63",
   "status": "proved",
   "theorems": [
    "C63_feedback"
   ],
   "note": ""
  },
  {
   "property": "C64",
   "status": "proved",
   "theorems": [
    "C64_memory",
    "C64_like_new"
   ],
   "note": ""
  },
  {
   "property": "C65",
   "status": "proved",
   "theorems": [
    "C65_no_trace",
    "C65_unreadable"
   ],
   "note": "C65_no_trace covers any number of such cycles anywhere in a history; the inputs shown after other failed cycles are not compared."
  },
  {
   "property": "C66",
   "status": "proved",
   "theorems": [
    "C66_module_isolation",
    "C66_from_the_start"
   ],
   "note": "Requires all cycles of both runs to succeed (one failing module fails the cycle for all, C40 and C59); shown output values of serial modules are left out because of the shared counter (C49, C61); overlapping or shifted larger modules are C42."
  },
  {
   "property": "C67",
   "status": "proved",
   "theorems": [
    "C67_restart_transmission",
    "C67_restart_progress",
    "C67_restart_reception",
    "C67_restart_reception_progress"
   ],
   "note": "C57 and C58 for whole couplers, including set_output requests and arbitrary other modules."
  },
  {
   "property": "C68",
   "status": "proved",
   "theorems": [
    "C68_release_follows_debug",
    "C68_same_builds",
    "C68_same_success",
    "C68_same_start"
   ],
   "note": "C68_release_follows_debug over all histories, C68_same_builds (equivalence for output addresses in the output area), C68_same_success (unconditional for successful cycles), C68_same_start; C68_difference shows why the address condition is needed."
  },
  {
   "property": "C69",
   "status": "partial",
   "theorems": [
    "C69_refuted",
    "C69_disturbed_transmission_partial",
    "C69_disturbed_progress"
   ],
   "note": "REFUTED as stated: a segment that next has put into an output image is gone if that image is not written and the program then reads the output image back (C69_refuted: 6 of 8 bytes never arrive). C69_disturbed_transmission_partial: nothing is duplicated or reordered, at most one process image full of bytes is missing per image that was computed but forgotten, nothing if none was; C69_disturbed_progress: everything not forgotten arrives."
  },
  {
   "property": "C70",
   "status": "proved",
   "theorems": [
    "C70_disturbed_reception"
   ],
   "note": ""
  },
  {
   "property": "C71",
   "status": "proved",
   "theorems": [
    "C71_last_request_kept",
    "C71_last_request_shown"
   ],
   "note": "C71_last_request_kept gives the bits of the image, C71_last_request_shown what outputs() shows (shown_for as in C63). Analog channels with format S7 are excluded from the second theorem because repeated read-back drifts (C20, C48)."
  },
  {
   "property": "C72",
   "status": "proved",
   "theorems": [
    "C72_loop_goes_on",
    "C72_loop_recovers",
    "C72_blank_start"
   ],
   "note": "C72_loop_goes_on, C72_loop_recovers, C72_blank_start. The exact condition for an arbitrary image is C59; here the part about the output image is shown to hold for every image the crate returns itself."
  },
  {
   "property": "C73",
   "status": "proved",
   "theorems": [
    "C73_start_up_succeeds",
    "C73_start_up_fails",
    "C73_unsupported_never_starts",
    "C73_too_many"
   ],
   "note": "C73_start_up_succeeds, C73_start_up_fails, C73_unsupported_never_starts, C73_too_many. C60 says what the coupler looks like when start-up succeeds."
  },
  {
   "property": "C74",
   "status": "proved",
   "theorems": [
    "C74_storage",
    "C74_growth"
   ],
   "note": "C74_storage, C74_growth. Sizes of the cached input and output values are C36. The capacity that Vec and HashMap reserve beyond their length is not modelled."
  },
  {
   "property": "C75",
   "status": "proved",
   "theorems": [
    "C75_default_configured",
    "C75_default_inputs",
    "C75_default_outputs",
    "C75_default_messages"
   ],
   "note": "C75_default_configured, C75_default_inputs, C75_default_outputs, C75_default_messages."
  },
  {
   "property": "C76",
   "status": "proved",
   "theorems": [
    "C76_texts",
    "C76_descriptions",
    "C76_module_list",
    "C76_new",
    "C76_set_output",
    "C76_cycle"
   ],
   "note": "C76_texts, C76_descriptions, C76_module_list, C76_new, C76_set_output, C76_cycle; C59_cycle_errors says which situation causes which error of a cycle."
  },
  {
   "property": "C77",
   "status": "proved",
   "theorems": [
    "C77_order",
    "C77_number",
    "C77_readback_order",
    "C77_change",
    "C77_cached_change"
   ],
   "note": "C77_order, C77_number, C77_readback_order, C77_change, C77_cached_change."
  },
  {
   "property": "C78",
   "status": "proved",
   "theorems": [
    "C78_reorder",
    "C78_tasks"
   ],
   "note": "C78_reorder (any history, adjacent independent calls), C78_tasks (any schedules of independent tasks)."
  },
  {
   "property": "C79",
   "status": "proved",
   "theorems": [
    "C79_cycle",
    "C79_runs",
    "C79_longer_images"
   ],
   "note": "C79_cycle, C79_runs, C79_longer_images. For a module of several bytes in the middle of a register the last byte is not read at all (C42); the theorem asks for it to be equal although it does not matter."
  },
  {
   "property": "C80",
   "status": "proved",
   "theorems": [
    "C80_values",
    "C80_tables",
    "C80_numbers"
   ],
   "note": "C80_values, C80_tables, C80_numbers. The derived == is specified as same_value: IEEE equality for numbers, identity for everything else."
  },
  {
   "property": "C81",
   "status": "proved",
   "theorems": [
    "C81_inputs",
    "C81_outputs",
    "C81_shown_inputs",
    "C81_shown_outputs"
   ],
   "note": "C81_inputs, C81_outputs for single modules, C81_shown_inputs, C81_shown_outputs for couplers after successful cycles. Rows of serial modules in couplers are covered by C61, C62. Modules of more than one byte in the middle of a register are read wrongly (C42)."
  },
  {
   "property": "C82",
   "status": "proved",
   "theorems": [
    "C82_analog_kept",
    "C82_physical_value"
   ],
   "note": "C82_analog_kept, C82_physical_value, for modules that have their registers for themselves (C40, C42). The drift of format S7 is the one of C20."
  },
  {
   "property": "C83",
   "status": "proved",
   "theorems": [
    "C83_inputs",
    "C83_outputs"
   ],
   "note": "C83_inputs, C83_outputs, for modules on a register boundary or one-byte modules in the upper byte (other positions: C40, C42). Serial modules: C62, C69."
  },
  {
   "property": "C84",
   "status": "proved",
   "theorems": [
    "C84_streams",
    "C84_handshake"
   ],
   "note": "C84_streams, C84_handshake, for serial modules on register boundaries (C40, C42). C33 - C35, C50, C55 and C69 say what this means together with a module that follows the protocol."
  },
  {
   "property": "C85",
   "status": "proved",
   "theorems": [
    "C85_wire"
   ],
   "note": "C85_wire. Modules whose bytes a later module overwrites: C40, C42. Serial modules: C62, C84."
  },
  {
   "property": "C86",
   "status": "proved",
   "theorems": [
    "C86_link",
    "C86_link_progress"
   ],
   "note": "C86_link, C86_link_progress. The line and the modules are the environment (SpecLink.v, SpecSystem.v); without the two cycles bytes can be lost (C35, C55)."
  },
  {
   "property": "C87",
   "status": "proved",
   "theorems": [
    "C87_copy"
   ],
   "note": "C87_copy. Exact copies with format S7 are not possible in general (C20)."
  },
  {
   "property": "C88",
   "status": "proved",
   "theorems": [
    "C88_frequency",
    "C88_frequency_order",
    "C88_hertz_order"
   ],
   "note": "C88_frequency, C88_frequency_order; C88_hertz_order for counter values that do not come from a module, with durations up to 2^24 seconds."
  },
  {
   "property": "C89",
   "status": "proved",
   "theorems": [
    "C89_write_all",
    "C89_read_exact",
    "C89_read_to_end"
   ],
   "note": "C89_write_all, C89_read_exact, C89_read_to_end. The loops of the standard library are specified in SpecStdio.v. C89_write_all also justifies modelling write_all in a cycle as one write."
  },
  {
   "property": "C90",
   "status": "proved",
   "theorems": [
    "C90_image_size",
    "C90_read_back"
   ],
   "note": "C90_image_size, C90_read_back."
  },
  {
   "property": "C91",
   "status": "proved",
   "theorems": [
    "C91_restore",
    "C91_shown_again"
   ],
   "note": "C91_restore, C91_shown_again. Theorem C91_shown_again is stated for modules that have their part of the image for themselves (see C40)."
  },
  {
   "property": "C92",
   "status": "proved",
   "theorems": [
    "C92_inputs",
    "C92_outputs",
    "C92_serial"
   ],
   "note": "C92_inputs, C92_outputs, C92_serial."
  },
  {
   "property": "C93",
   "status": "proved",
   "theorems": [
    "C93_bits",
    "C93_padding"
   ],
   "note": "C93_bits for all layouts; C93_padding for serial modules on register boundaries whose bytes no later module claims (C40, C42)."
  },
  {
   "property": "C94",
   "status": "proved",
   "theorems": [
    "C94_streams",
    "C94_messages",
    "C94_total"
   ],
   "note": "C29-C35 treat the messages of real modules; here nothing is assumed but the range of the Rust types. A message with receive counter 4 right after the initialisation counts as already received (the sentinel of the implementation)."
  },
  {
   "property": "C95",
   "status": "proved",
   "theorems": [
    "C95_crate_modules",
    "C95_inputs",
    "C95_readback",
    "C95_outputs",
    "C95_outputs_exist",
    "C95_output_errors",
    "C95_output_panics",
    "C95_defaults"
   ],
   "note": "An odd byte count larger than one is rounded down: the last byte is not given to the module. Reading back assumes output offsets of the output image (0x8000 or above), otherwise see C43. The methods are modelled as functions without interior mutability. As in C40, two modules may claim the same upper byte; the later one wins."
  },
  {
   "property": "C96",
   "status": "proved",
   "theorems": [
    "C96_first_problem",
    "C96_no_problem"
   ],
   "note": "Output offsets below 0x8000 are excluded: a debug build panics there (C43), see also C59."
  },
  {
   "property": "C97",
   "status": "proved",
   "theorems": [
    "C97_inputs",
    "C97_outputs",
    "C97_messages",
    "C97_write",
    "C97_write_message",
    "C97_write_nothing"
   ],
   "note": "Reading back the outputs of a hand-built analog output module without settings panics, see C52; that one case is excluded here by settings_to_read_back."
  },
  {
   "property": "C98",
   "status": "proved",
   "theorems": [
    "C98_other_registers",
    "C98_area",
    "C98_restart",
    "C98_inputs",
    "C98_outputs"
   ],
   "note": "The registers are a function from addresses to values; the coupler's own firmware changes input registers only. Restart is proved for every register content of at most 64 modules."
  },
  {
   "property": "C99",
   "status": "proved",
   "theorems": [
    "C99_digital",
    "C99_analog",
    "C99_counter",
    "C99_undisturbed",
    "C99_seen"
   ],
   "note": "exchanges are atomic, that is, the programs take turns; C99_turns_needed (an Example) shows that they have to. Serial modules are not covered: two programs that share one would both run its protocol."
  },
  {
   "property": "C100",
   "status": "proved",
   "theorems": [
    "C100_never_stuck",
    "C100_ready",
    "C100_digital",
    "C100_analog",
    "C100_counter"
   ],
   "note": "C100_never_stuck, C100_ready, C100_digital, C100_analog, C100_counter. The example shows a preset put together from two requests. The bytes of serial messages are not covered: a half-written message can contain wrong bytes. Wide modules in the middle of a register are excluded by byte_wide (C42)."
  },
  {
   "property": "C101",
   "status": "proved",
   "theorems": [
    "C101_succeeds",
    "C101_value",
    "C101_counter",
    "C101_outputs"
   ],
   "note": "Modules must be on a register boundary, or have one byte in the upper half of a register. Serial modules are excluded from the value theorem: the example shows that a torn read of a serial message delivers bytes that were never sent."
  },
  {
   "property": "C102",
   "status": "proved",
   "theorems": [
    "C102_torn_transmission",
    "C102_order_needed",
    "C102_torn_progress",
    "C102_torn_reception"
   ],
   "note": "C102_order_needed shows that the assumption about the order cannot be dropped."
  },
  {
   "property": "C103",
   "status": "proved",
   "theorems": [
    "C103_endure_transmission",
    "C103_endure_progress",
    "C103_endure_reception",
    "C103_whole_needed"
   ],
   "note": "C103_whole_needed shows that the order of C102 does not suffice when programs are restarted."
  },
  {
   "property": "C104",
   "status": "proved",
   "theorems": [
    "C104_rough_link",
    "C104_rough_progress"
   ],
   "note": ""
  },
  {
   "property": "C105",
   "status": "proved",
   "theorems": [
    "C105_slow_transmission",
    "C105_slow_progress",
    "C105_slow_reception",
    "C105_read_order_needed",
    "C105_quiet_start_needed"
   ],
   "note": "C105_slow_transmission, C105_slow_progress: any mixture of registers. C105_slow_reception: first register not read after the others. C105_read_order_needed, C105_quiet_start_needed: witnesses that the conditions are needed."
  },
  {
   "property": "C106",
   "status": "proved",
   "theorems": [
    "C106_flush_transmission",
    "C106_flush_reception",
    "C106_flush_ends",
    "C106_flags_stay",
    "C106_written_reset_needed"
   ],
   "note": "The module's behaviour (buffers, obeying the flags) is part of the specification SpecFlush.v; C106_written_reset_needed shows that the hypothesis on forgotten images cannot be dropped."
  },
  {
   "property": "C107",
   "status": "proved",
   "theorems": [
    "C107_delayed_transmission",
    "C107_delayed_progress",
    "C107_order_needed"
   ],
   "note": "Proved for every history: the accounting of the bytes, and progress per round with any number of other images under way. The witness C107_order_needed shows that the order of the messages is needed in both directions."
  },
  {
   "property": "C108",
   "status": "proved",
   "theorems": [
    "C108_delayed_reception",
    "C108_delayed_fetch"
   ],
   "note": "Proved for every history; the loss of segments offered before the second cycle is that of C35."
  },
  {
   "property": "C109",
   "status": "proved",
   "theorems": [
    "C109_account",
    "C109_enough",
    "C109_needed"
   ],
   "note": "C109_account, C109_enough, C109_needed, for serial modules on register boundaries (C40, C42), after the two initialising cycles. Small calls are not combined: each costs at least one segment."
  },
  {
   "property": "C110",
   "status": "proved",
   "theorems": [
    "C110_served",
    "C110_throttled",
    "C110_fetched"
   ],
   "note": "C110_served, C110_throttled, C110_fetched, for serial modules on register boundaries (C40, C42)."
  },
  {
   "property": "C111",
   "status": "proved",
   "theorems": [
    "C111_inside_a_step",
    "C111_every_code",
    "C111_on_the_wire"
   ],
   "note": "C111_inside_a_step, C111_every_code, C111_on_the_wire; for modules whose registers are not shared (C40, C42) on the wire. With format S7 later cycles without a request can move the code (C20, C48)."
  },
  {
   "property": "C112",
   "status": "proved",
   "theorems": [
    "C112_every_output",
    "C112_presets"
   ],
   "note": "C112_every_output, C112_presets. Racks whose modules share registers are the subject of C40 and C42, serial modules of C50."
  },
  {
   "property": "C113",
   "status": "proved",
   "theorems": [
    "C113_accepted",
    "C113_interchangeable"
   ],
   "note": "C113_accepted, C113_interchangeable. The example C113_order_case shows that the order of two byte strings can differ if both are handed over before the same cycle."
  },
  {
   "property": "C114",
   "status": "proved",
   "theorems": [
    "C114_gateway",
    "C114_gateway_progress"
   ],
   "note": "C114_gateway, C114_gateway_progress. Two plants of SpecSystem.v that share the coupler and the images (SpecRelay.v)."
  },
  {
   "property": "C115",
   "status": "proved",
   "theorems": [
    "C115_exactly",
    "C115_reader",
    "C115_writer"
   ],
   "note": "C115_exactly, C115_reader, C115_writer."
  },
  {
   "property": "C116",
   "status": "proved",
   "theorems": [
    "C116_chain",
    "C116_chain_progress"
   ],
   "note": "C116_chain, C116_chain_progress. The relay of SpecRelay.v between two plants of SpecSystem.v (SpecChain.v)."
  },
  {
   "property": "C117",
   "status": "proved",
   "theorems": [
    "C117_row",
    "C117_row_progress"
   ],
   "note": "C117_row, C117_row_progress. SpecRow.v; with one program in between it is the row of C116, with none the line of C86."
  },
  {
   "property": "C118",
   "status": "proved",
   "theorems": [
    "C118_codes",
    "C118_configurable",
    "C118_rack"
   ],
   "note": "C118_codes, C118_configurable, C118_rack. SpecSetup.v; the converse direction of C10."
  },
  {
   "property": "C119",
   "status": "proved",
   "theorems": [
    "C119_bits",
    "C119_codes",
    "C119_value",
    "C119_disabled"
   ],
   "note": "C119_bits, C119_codes, C119_value, C119_disabled. SpecRepeater.v; copies of one program are those of C87. With mixed formats the code creeps towards the lower end of its 1024th (45, 26, 43, ...)."
  },
  {
   "property": "C120",
   "status": "proved",
   "theorems": [
    "C120_program",
    "C120_goes_on"
   ],
   "note": "C120_program, C120_goes_on. SpecMachine.v defines the program, what it is meant to do without a coupler (meant) and its rounds with one (rounds). Output modules have their part of the output image for themselves (alone, as in C71), input modules are placed as in C83; no request is pending for the outputs at the start."
  },
  {
   "property": "C121",
   "status": "proved",
   "theorems": [
    "C121_program",
    "C121_goes_on"
   ],
   "note": "C121_program, C121_goes_on. SpecController.v defines the program, what it is meant to do without a coupler (controls, with the terminal meanings of C83 and C85) and its rounds with one (control_rounds). For digital outputs that are not commanded in every round see C120."
  },
  {
   "property": "C122",
   "status": "proved",
   "theorems": [
    "C122_copes",
    "C122_goes_on"
   ],
   "note": "C122_copes, C122_goes_on. SpecOutage.v: events, what the program is meant to do under them (copes) and its rounds with a coupler (disturbed)."
  },
  {
   "property": "C123",
   "status": "proved",
   "theorems": [
    "C123_network",
    "C123_goes_on"
   ],
   "note": "C123_network, C123_goes_on. SpecNetwork.v: the network of machines (machines) and of programs with couplers (stations). All programs have the same type of state, which can be a sum of the types needed. Rounds are atomic."
  },
  {
   "property": "C124",
   "status": "proved",
   "theorems": [
    "C124_network_copes",
    "C124_goes_on"
   ],
   "note": "C124_network_copes, C124_goes_on. SpecFaults.v: the disturbed network of machines (troubled) and of programs with couplers (faulty). Rounds are atomic, apart from the write that is interrupted."
  }
 ]
}