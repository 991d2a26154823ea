{"id": "C01", "title": "Module ids identify exactly one module type", "statement": "ModuleType::try_from_u32 succeeds on exactly the 61 documented identifiers, gives each of them its own module type, never maps two identifiers to the same type, and returns UnknownModule for every other 32-bit value. (UR20_PF_I and UR20_PF_O have no identifier.)", "quantifier": "every u32 identifier and every module type", "why_tests_cant": "2^32 identifiers; tests sample two of them", "anchors": ["src/lib.rs: ModuleType::try_from_u32"]}
{"id": "C02", "title": "The module list registers decode to the plugged modules in order", "statement": "module_list_from_registers applied to the high/low register pairs of any non-empty list of identifiable modules returns that list, in order; an empty or odd-length register list is rejected with RegisterCount, and any unknown identifier anywhere in the list makes the whole call fail with UnknownModule.", "quantifier": "every register list of any length", "why_tests_cant": "unbounded list lengths and 2^32 values per entry", "anchors": ["src/ur20_fbc_mod_tcp.rs: module_list_from_registers", "src/lib.rs: ModuleType::try_from_u32"]}
{"id": "C03", "title": "Module names parse case- and dash-insensitively, and only they parse", "statement": "Parsing a string as ModuleType succeeds exactly when its upper-cased form with '-' replaced by '_' is the name of a module type, the result is the type of that name, names are pairwise different, every type is parseable from its name in any ASCII case and with '-' or '_', and everything else gives UnknownModule.", "quantifier": "every string of Unicode scalar values", "why_tests_cant": "infinite string space", "anchors": ["src/lib.rs: impl FromStr for ModuleType"]}
{"id": "C04", "title": "Categories parse from their own names and classify every module", "statement": "Every module type has a category that agrees with its product name, and parsing the (case-insensitive) name of a category gives back that category, while any other string gives UnknownCategory.", "quantifier": "every category, module type and string", "why_tests_cant": "infinite string space; the test checks three strings", "anchors": ["src/lib.rs: impl FromStr for ModuleCategory", "src/lib.rs: impl From<ModuleType> for ModuleCategory"]}
{"id": "C05", "title": "Channel counts agree with the product names", "statement": "The channel count of each module type is the number printed in its product name after 'UR20_', except that power feed modules have 0 channels and UR20_3EM_230V_AC has 8.", "quantifier": "every module type", "why_tests_cant": "a table of 63 entries that no test compares with anything", "anchors": ["src/lib.rs: ModuleType::channel_count", "src/lib.rs: impl FromStr for ModuleType"]}
{"id": "C06", "title": "Bit addresses split and merge losslessly", "statement": "Splitting any bit address into register and bit and merging the two again gives the same address; merging then splitting gives back register and bit whenever register < 0x1000 and bit < 16; outside that range different pairs collide.", "quantifier": "every u16 bit address, every register and bit number", "why_tests_cant": "65536 addresses and 2^80 pairs; tests use four literals", "anchors": ["src/ur20_fbc_mod_tcp.rs: to_register_address", "src/ur20_fbc_mod_tcp.rs: to_bit_address"]}
{"id": "C07", "title": "The offset table is decoded pairwise, output first", "statement": "offsets_of_process_data returns one entry per complete register pair, in order: the first register of a pair is the output offset, the second the input offset, 0xFFFF means 'no data', every other value is passed through, and an incomplete trailing register is ignored.", "quantifier": "every register list of any length", "why_tests_cant": "unbounded lengths and values", "anchors": ["src/ur20_fbc_mod_tcp.rs: offsets_of_process_data", "src/ur20_fbc_mod_tcp.rs: word_to_offset"]}
{"id": "C08", "title": "Parameter windows are disjoint and correctly placed for up to 64 modules", "statement": "For every list of at most 64 supported modules, param_addresses_and_register_counts returns for module i address 0xC000 + 256*i and that module's parameter register count; the windows [address, address+count) are pairwise disjoint and inside the 16-bit register space. With more than 64 modules a debug build panics and a release build returns wrapped addresses that alias other registers.", "quantifier": "every list of module types of any length, both build profiles", "why_tests_cant": "unbounded module lists; the test uses three modules", "anchors": ["src/ur20_fbc_mod_tcp.rs: param_addresses_and_register_counts", "src/ur20_fbc_mod_tcp.rs: param_register_count"]}
{"id": "C09", "title": "Module parameters are accepted exactly when complete and in range", "statement": "For every supported module type, building the module from parameter registers gives BufferLength when there are fewer registers than param_register_count, ChannelParameter when some register holds a code outside its documented range, and success otherwise; registers beyond the documented count are ignored and never make the call panic.", "quantifier": "every supported module type and every register list of any length", "why_tests_cant": "65536^n register images; unbounded lengths", "anchors": ["src/ur20_fbc_mod_tcp.rs: from_modbus_parameter_data", "src/ur20_fbc_mod_tcp.rs: param_register_count", "src/ur20_4ai_tc_diag.rs: parameters_from_raw_data", "src/ur20_4ai_rtd_diag.rs: parameters_from_raw_data", "src/ur20_1com_232_485_422.rs: parameters_from_raw_data"]}
{"id": "C10", "title": "Accepted module parameters are represented faithfully", "statement": "Whenever a module is built from parameter registers, encoding the resulting parameter structure with the documented codes gives back exactly the registers it was built from (for analog outputs: the substitute value is the value the register denotes in the configured range, 0.0 when disabled).", "quantifier": "every supported module type and every accepted register list", "why_tests_cant": "65536^n register images", "anchors": ["src/ur20_fbc_mod_tcp.rs: from_modbus_parameter_data", "src/ur20_4ao_ui_16.rs: parameters_from_raw_data", "src/ur20_8ai_i_16_diag_hd.rs: parameters_from_raw_data"]}
{"id": "C11", "title": "Coupler construction succeeds exactly on complete, supported, valid configurations", "statement": "Coupler::new returns BufferLength if the parameter list does not have one entry per module, else ModuleOffset if the offset table does not have two words per module, else builds the modules left to right, failing with the first module's parameter error or panicking at the first unsupported module; otherwise it succeeds with one module per configured type, no cached values and no pending writes. All module types it supports have a register count, and all-zero parameters of that count are accepted for each of them.", "quantifier": "every configuration of any size", "why_tests_cant": "unbounded configurations", "anchors": ["src/ur20_fbc_mod_tcp.rs: Coupler::new", "src/ur20_fbc_mod_tcp.rs: CouplerConfig::validate"]}
{"id": "C12", "title": "Every module reports the type it was configured as", "statement": "For each supported module type, the module built for it reports that type as its module_type.", "quantifier": "every supported module type and all parameters accepted for it", "why_tests_cant": "tests never ask a module built for UR20_4AI_UI_16 for its type", "anchors": ["src/ur20_ai_ui_generic.rs: Module for Mod", "src/ur20_fbc_mod_tcp.rs: Coupler::new"]}
{"id": "C13", "title": "Digital channels are the bits of the process image", "statement": "For every digital input and output module with n channels, decoding a word yields n Bit values and channel i is exactly bit i of the module's word, independent of all bits at positions >= n; a word count other than one gives BufferLength.", "quantifier": "every digital module type and every register list", "why_tests_cant": "65536 images per module and unbounded lists", "anchors": ["src/ur20_di_generic.rs: process_input_data", "src/ur20_do_generic.rs: process_output_data", "src/ur20_16do_p.rs: process_output_data", "src/ur20_4ro_co_255.rs: process_output_data"]}
{"id": "C14", "title": "Digital output encoding is exact and rejects foreign values", "statement": "Encoding n channel values of a digital output module gives one word whose bit i is set exactly when value i is Bit(true), Disabled counting as false, and all bits >= n clear; any other length or kind of value gives ChannelValue; encoding then decoding gives the same Bit values, decoding then encoding gives the word with the bits >= n cleared.", "quantifier": "every digital output module type and every list of channel values", "why_tests_cant": "value lists of unbounded length", "anchors": ["src/ur20_do_generic.rs: process_output_values", "src/ur20_16do_p.rs: process_output_values", "src/ur20_4ro_co_255.rs: process_output_values"]}
{"id": "C15", "title": "Safe power feed status bits are decoded at their documented positions", "statement": "Decoding the two input words of UR20_PF_O_1DI_SIL reports each status flag exactly as the documented bit (byte 0 bits 0,2,3,4,5 and byte 1 bits 0,2), independent of every other bit.", "quantifier": "every pair of words and every register list length", "why_tests_cant": "2^32 images", "anchors": ["src/ur20_pf_o_1di_sil.rs: process_input_data"]}
{"id": "C16", "title": "Analog inputs decode to the correctly rounded physical value", "statement": "For all analog current/voltage inputs (and output readback), all 65536 codes, ranges and data formats, the reported f32 is finite and within the stated bound of the exact value base + span*signed(code)/factor: it is the correctly rounded f32 for ranges starting at zero, exact for format S5, and at most one extra rounding away for ranges with an offset; the channel is reported Disabled exactly when its range is Disabled.", "quantifier": "every code, range, format and analog input module", "why_tests_cant": "65536 codes x 9 ranges x 2 formats x roundings; tests check eighteen exact points", "anchors": ["src/util.rs: u16_to_analog_ui_value", "src/ur20_8ai_i_16_diag_hd.rs: process_input_data", "src/ur20_ai_ui_generic.rs: process_input_data", "src/ur20_4ai_ui_16_diag.rs: process_input_data"]}
{"id": "C17", "title": "Analog output encoding is total, saturating and monotone", "statement": "For every f32 value including NaN, infinities, subnormals and negative zero, encoding an analog output gives a 16-bit code: NaN gives 0, values beyond full scale saturate at 32767 / -32768 and never wrap, and a larger value never gets a smaller signed code.", "quantifier": "all 2^32 f32 values, all ranges and formats", "why_tests_cant": "2^32 inputs and pairs of inputs", "anchors": ["src/util.rs: analog_ui_value_to_u16", "src/ur20_4ao_ui_16.rs: process_output_values", "src/ur20_4ao_ui_16_diag.rs: process_output_values"]}
{"id": "C18", "title": "Analog output encoding is accurate", "statement": "For every finite f32 value whose exact code factor*(v-base)/span lies within the 16-bit signed range, the encoded code differs from the exact one by less than 1.01 LSB.", "quantifier": "all finite f32 values in range, all ranges and formats", "why_tests_cant": "2^32 inputs with three roundings each", "anchors": ["src/util.rs: analog_ui_value_to_u16"]}
{"id": "C19", "title": "Format S5 analog codes survive readback unchanged", "statement": "With data format S5, for every range except Disabled and every 16-bit code, decoding the code to a value and encoding the value again gives the same code.", "quantifier": "every code and range", "why_tests_cant": "65536 codes x 8 ranges", "anchors": ["src/util.rs: u16_to_analog_ui_value", "src/util.rs: analog_ui_value_to_u16"]}
{"id": "C20", "title": "Format S7 analog codes survive readback unchanged", "statement": "With data format S7, for every range except Disabled and every 16-bit code, decoding the code to a value and encoding the value again gives the same code, so that an output that is not written keeps its value from cycle to cycle.", "quantifier": "every code and range, any number of cycles", "why_tests_cant": "65536 codes x 8 ranges and unbounded numbers of cycles", "anchors": ["src/util.rs: u16_to_analog_ui_value", "src/util.rs: analog_ui_value_to_u16", "src/ur20_fbc_mod_tcp.rs: Coupler::next"]}
{"id": "C21", "title": "RTD inputs decode to the physical value", "statement": "For every code and RTD range the reported value is the correctly rounded tenth of the signed code for temperature ranges, and within 2^-23 relative of full_scale*code/27648 for resistance ranges; Disabled exactly when the range is Disabled.", "quantifier": "every code and range", "why_tests_cant": "65536 codes x 19 ranges", "anchors": ["src/util.rs: u16_to_rtd_value", "src/ur20_4ai_rtd_diag.rs: process_input_data"]}
{"id": "C22", "title": "Thermocouple inputs decode to the physical value and flag line breaks", "statement": "For every code and measurement range: thermocouple types report None exactly for code 0x7FFF and otherwise signed(code)/10 within 2^-22 relative; voltage ranges report the correctly rounded full_scale*signed(code)/32767; Disabled channels report Disabled for every code.", "quantifier": "every code and range", "why_tests_cant": "65536 codes x 20 ranges", "anchors": ["src/ur20_4ai_tc_diag.rs: u16_to_thermal_value", "src/ur20_4ai_tc_diag.rs: process_input_data"]}
{"id": "C23", "title": "Frequency counter presets survive the round trip", "statement": "For every pair of frequency counter commands with duration at most 8.388607 s, encoding succeeds and decoding the result gives the same command and the duration truncated to microseconds; a longer duration on either channel gives ChannelValue; nothing overflows in either build profile.", "quantifier": "every duration (64-bit seconds, nanoseconds) and command", "why_tests_cant": "2^94 durations per channel", "anchors": ["src/ur20_2fcnt_100.rs: process_output_values", "src/ur20_2fcnt_100.rs: process_output_data"]}
{"id": "C24", "title": "Frequency counter inputs decode exactly", "statement": "Decoding ten input words reports for each channel the 32-bit edge count, the active flag (bit 8) and the period 125 ns * raw, or no period exactly when raw >= 0x07FFFFFF; the reported duration is always normalised; another word count gives BufferLength.", "quantifier": "every register list", "why_tests_cant": "2^160 images", "anchors": ["src/ur20_2fcnt_100.rs: process_input_data"]}
{"id": "C25", "title": "The reported frequency is accurate", "statement": "For every counter input with a positive period, hertz() is finite and within 4 units of f32 relative precision of count/period; without a period it is None; hertz() never panics.", "quantifier": "every count and duration", "why_tests_cant": "2^32 x 2^94 inputs with four roundings each", "anchors": ["src/ur20_2fcnt_100.rs: ProcessInput::hertz"]}
{"id": "C26", "title": "Serial messages survive encoding and decoding", "statement": "Every serial output message with sequence numbers 0..3 and at most 6 (14) data bytes encodes to exactly 8 (16) bytes, and decoding those bytes gives back the identical message; sequence numbers above 3 give SequenceNumber and longer data gives DataLength, in that order; encoding never panics.", "quantifier": "every message with any counters and any data length", "why_tests_cant": "unbounded data and 2^128 counters", "anchors": ["src/ur20_1com_232_485_422.rs: ProcessOutput::try_into_byte_message", "src/ur20_1com_232_485_422.rs: ProcessOutput::try_from_byte_message"]}
{"id": "C27", "title": "Serial message decoding is total and bit exact", "statement": "Decoding a serial input or output message from any byte string succeeds exactly when there are at least two bytes and the announced data length fits, returns exactly the announced bytes and the documented status bits, and otherwise returns BufferLength; it never panics and never reads beyond the announced data.", "quantifier": "every byte string of any length", "why_tests_cant": "256^n byte strings", "anchors": ["src/ur20_1com_232_485_422.rs: ProcessInput::try_from_byte_message", "src/ur20_1com_232_485_422.rs: ProcessOutput::try_from_byte_message"]}
{"id": "C28", "title": "Serial messages read back and written again are unchanged up to padding", "statement": "For every 8 (16) byte image that decodes as a serial output message, encoding the decoded message gives the same image with the bytes beyond the announced data zeroed.", "quantifier": "every image of the module's size", "why_tests_cant": "256^16 images", "anchors": ["src/ur20_1com_232_485_422.rs: process_output_data", "src/ur20_1com_232_485_422.rs: process_output_values"]}
{"id": "C29", "title": "Serial initialisation runs exactly once, in order, for every history", "statement": "Whatever is written, read or received before, the first processed cycle of a serial module requests flushing both buffers with the reset flag cleared, the second cycle clears the flush flags and sets the reset flag, both carry no data, and from the third cycle on these flags are passed through unchanged; no queued byte is sent before the third cycle.", "quantifier": "every history of writes, reads and cycles with arbitrary inputs", "why_tests_cant": "unbounded histories", "anchors": ["src/ur20_1com_232_485_422.rs: MessageProcessor::next", "src/ur20_1com_232_485_422.rs: InitState"]}
{"id": "C30", "title": "Written bytes are queued completely and in order", "statement": "Writing any byte string to a serial module queues it as consecutive chunks that are non-empty, at most 6 (14) bytes long and concatenate to the queued bytes; the full length is reported as written; nothing already queued changes; writing in several pieces or at once queues the same byte sequence.", "quantifier": "every byte string and every history of writes", "why_tests_cant": "unbounded strings and histories", "anchors": ["src/ur20_1com_232_485_422.rs: impl Write for MessageProcessor"]}
{"id": "C31", "title": "Received bytes are read exactly once and in order", "statement": "Reading n bytes from a serial module returns the min(n, available) oldest received bytes in order and removes exactly these; for every sequence of reads with arbitrary buffer sizes the concatenation of what was read plus what is still buffered equals what was received.", "quantifier": "every sequence of receptions and reads of any size", "why_tests_cant": "unbounded histories", "anchors": ["src/ur20_1com_232_485_422.rs: impl Read for MessageProcessor"]}
{"id": "C32", "title": "Sequence numbers stay encodable forever", "statement": "For every history of a serial module fed with decoded process data, every message it asks to transmit has sequence numbers 0..3 and at most 6 (14) data bytes, so encoding it never fails; the acknowledged receive counter always equals the receive counter of the current input.", "quantifier": "every history", "why_tests_cant": "unbounded histories", "anchors": ["src/ur20_1com_232_485_422.rs: MessageProcessor::next", "src/ur20_1com_232_485_422.rs: inc_cnt"]}
{"id": "C33", "title": "Serial transmission is exactly-once and in order under every schedule", "statement": "With a device that takes over a segment when the transmit counter differs from its acknowledge counter and then acknowledges it, with arbitrary delays between host and device steps and arbitrary interleaving of writes, the bytes taken over by the device, followed by the segment in flight and the queue, always equal the bytes written, in order: nothing is lost, duplicated or reordered.", "quantifier": "every interleaving of writes, host reads, host cycles and device steps, of any length", "why_tests_cant": "unbounded schedules with stale inputs", "anchors": ["src/ur20_1com_232_485_422.rs: MessageProcessor::next", "src/ur20_1com_232_485_422.rs: impl Write for MessageProcessor"]}
{"id": "C34", "title": "Serial transmission makes progress", "statement": "If after initialisation the device keeps acknowledging, every queued chunk reaches the device: k queued chunks are all taken over within k host cycles when the device acknowledges each segment before the next cycle, and no cycle in which the device has acknowledged the last segment passes without sending a chunk while the queue is non-empty.", "quantifier": "every queue length and every fair schedule", "why_tests_cant": "unbounded queues and schedules", "anchors": ["src/ur20_1com_232_485_422.rs: MessageProcessor::next"]}
{"id": "C35", "title": "Serial reception is exactly-once and in order under every schedule", "statement": "With a device that offers a segment under the next receive counter and replaces it only after its counter has been acknowledged, with arbitrary delays, the bytes delivered to the reader are exactly the offered segments in order, each once, except possibly the segment not yet fetched.", "quantifier": "every interleaving of device and host steps, of any length, starting from a new processor", "why_tests_cant": "unbounded schedules with stale inputs and repeated cycles", "anchors": ["src/ur20_1com_232_485_422.rs: MessageProcessor::next"]}
{"id": "C36", "title": "Inputs and outputs have one entry per module and channel", "statement": "After every successful cycle of every history, inputs() and outputs() have one entry per module, and each entry has as many values as the module has channels.", "quantifier": "every reachable coupler and every cycle", "why_tests_cant": "unbounded histories and configurations", "anchors": ["src/ur20_fbc_mod_tcp.rs: Coupler::inputs", "src/ur20_fbc_mod_tcp.rs: Coupler::outputs", "src/ur20_fbc_mod_tcp.rs: Coupler::next"]}
{"id": "C37", "title": "Output requests are validated by address only and the last one wins", "statement": "set_output succeeds exactly when the module exists and has that channel, and gives Address otherwise without any effect; it changes no cached value and no process data by itself; of several requests for one channel before a cycle only the last is visible, and requests for different channels do not affect each other.", "quantifier": "every reachable coupler, every address and value, every sequence of requests", "why_tests_cant": "unbounded histories", "anchors": ["src/ur20_fbc_mod_tcp.rs: Coupler::set_output", "src/ur20_fbc_mod_tcp.rs: Coupler::is_valid_addr"]}
{"id": "C38", "title": "A cycle applies exactly the pending requests and keeps all other outputs", "statement": "In every successful cycle each output module's process data is the encoding of its current readback with exactly the pending requests of this coupler substituted; a channel without a request keeps its readback value; afterwards these requests are gone, so the next cycle does not apply them again.", "quantifier": "every reachable coupler, every process image, every set of pending requests", "why_tests_cant": "unbounded histories, images and request sets", "anchors": ["src/ur20_fbc_mod_tcp.rs: Coupler::next"]}
{"id": "C39", "title": "A digital output request reaches its bit and no other", "statement": "If Bit(b) is requested for channel k of a digital output module and the cycle succeeds, bit k of that module in the returned process image is b, and every other channel bit of every digital output module without request equals the readback bit.", "quantifier": "every reachable coupler with any mix of modules, every image and request", "why_tests_cant": "unbounded configurations and histories", "anchors": ["src/ur20_fbc_mod_tcp.rs: Coupler::next", "src/ur20_fbc_mod_tcp.rs: process_output_values", "src/ur20_do_generic.rs: process_output_values"]}
{"id": "C40", "title": "The output image contains each module's bytes at its configured offset", "statement": "Whenever process_output_values succeeds, the image is the concatenation of the modules' data words in module order, with each module placed at a byte boundary sharing the high byte of the previous word; each module's data starts at its configured offset, a module in the low byte is untouched by its neighbour in the high byte, gaps or overlaps give ModuleOffset.", "quantifier": "every module list, offsets and values", "why_tests_cant": "unbounded module lists", "anchors": ["src/ur20_fbc_mod_tcp.rs: process_output_values"]}
{"id": "C41", "title": "A module's inputs depend only on its own bytes", "statement": "Two process input images that agree on the words covered by a module's offset (for a byte-wide digital module: on its byte) give the same input values for that module, whatever the other modules are.", "quantifier": "every pair of images, every module list", "why_tests_cant": "unbounded images and module lists", "anchors": ["src/ur20_fbc_mod_tcp.rs: process_input_data", "src/ur20_fbc_mod_tcp.rs: prepare_raw_data_to_process"]}
{"id": "C42", "title": "Modules on an odd byte boundary exchange all their bytes", "statement": "A module whose offset is in the middle of a register (bit 8) decodes its input from, and encodes its output to, the bytes starting at that byte, exactly like a module on a register boundary.", "quantifier": "every module type, offset and image", "why_tests_cant": "unbounded images; tests use only one-byte modules at bit 8", "anchors": ["src/ur20_fbc_mod_tcp.rs: prepare_raw_data_to_process", "src/ur20_fbc_mod_tcp.rs: process_output_values", "src/util.rs: shift_data"]}
{"id": "C43", "title": "A cycle never panics", "statement": "For every coupler built from a supported configuration, every history and every pair of process images (well-formed or not), next() returns Ok or Err and never panics.", "quantifier": "every configuration, history and image, both build profiles", "why_tests_cant": "all configurations and images of any length", "anchors": ["src/ur20_fbc_mod_tcp.rs: Coupler::next", "src/ur20_fbc_mod_tcp.rs: prepare_raw_data_to_process"]}
{"id": "C44", "title": "A failed cycle has no effect", "statement": "If next() returns an error, inputs(), outputs(), pending requests and serial queues are as before the call, so the cycle can simply be repeated.", "quantifier": "every reachable coupler and every failing cycle", "why_tests_cant": "all error paths in all histories", "anchors": ["src/ur20_fbc_mod_tcp.rs: Coupler::next"]}
{"id": "C45", "title": "A rejected request does not affect other requests", "statement": "If a pending request has a value of the wrong kind, the cycle fails, but the other pending requests and queued serial data are still delivered by the following cycles.", "quantifier": "every reachable coupler with any set of requests", "why_tests_cant": "all combinations of requests", "anchors": ["src/ur20_fbc_mod_tcp.rs: Coupler::next", "src/ur20_1com_232_485_422.rs: MessageProcessor::next"]}
{"id": "C46", "title": "An accepted request is transmitted", "statement": "If set_output returned Ok, the value is transmitted by the next successful cycle, or that cycle reports an error.", "quantifier": "every reachable coupler, address and value", "why_tests_cant": "all value kinds x module kinds x offsets", "anchors": ["src/ur20_fbc_mod_tcp.rs: Coupler::set_output", "src/ur20_fbc_mod_tcp.rs: Coupler::next"]}
{"id": "C47", "title": "Results do not depend on hash map iteration order", "statement": "For every reachable coupler and images, next() gives the same result and the same later behaviour whatever the iteration order of the hash maps it uses.", "quantifier": "every iteration order, reachable coupler and pair of images", "why_tests_cant": "std's HashMap order is randomised per process; no test can enumerate it", "anchors": ["src/ur20_fbc_mod_tcp.rs: Coupler::next"]}
{"id": "C48", "title": "Idle cycles are stable", "statement": "Feeding the image returned by a cycle back as the next process output, with no pending request and no serial traffic, returns the same image again; in particular unwritten outputs do not drift.", "quantifier": "every reachable coupler, every image, any number of cycles", "why_tests_cant": "unbounded numbers of cycles", "anchors": ["src/ur20_fbc_mod_tcp.rs: Coupler::next", "src/ur20_fbc_mod_tcp.rs: process_output_data", "src/ur20_fbc_mod_tcp.rs: process_output_values"]}
{"id": "C49", "title": "Serial modules do not influence each other", "statement": "With several serial modules in one coupler, the bytes sent and received by each module, and the values shown for it by inputs() and outputs(), depend only on that module's own process data, writes and reads.", "quantifier": "every reachable coupler with any number of serial modules", "why_tests_cant": "unbounded histories; tests use one serial module", "anchors": ["src/ur20_fbc_mod_tcp.rs: Coupler::next", "src/ur20_fbc_mod_tcp.rs: Coupler::last_tx_cnt"]}
{"id": "C50", "title": "Bytes written to a serial module of a coupler leave in the process image in order, exactly once", "statement": "For every coupler containing a serial module on a register boundary (whose bytes no other module claims), in every history of successful cycles where the process output fed in is the image returned before and the device acknowledges as specified, the bytes announced by set_output(Bytes) and by the writer appear segment by segment in the module's part of the returned images, in order and exactly once.", "quantifier": "every configuration, every history of requests, writes and cycles", "why_tests_cant": "unbounded histories at the level of register images", "anchors": ["src/ur20_fbc_mod_tcp.rs: Coupler::next", "src/ur20_fbc_mod_tcp.rs: Coupler::writer", "src/ur20_1com_232_485_422.rs: MessageProcessor::next"]}
{"id": "C51", "title": "Encoding values never panics", "statement": "process_output_values returns Ok or Err for every module list, offsets and values.", "quantifier": "every module list, offsets and values", "why_tests_cant": "all combinations of module kinds, offsets and values", "anchors": ["src/ur20_fbc_mod_tcp.rs: process_output_values"]}
{"id": "C52", "title": "Hand-built modules with missing parameters fail gracefully", "statement": "For every module value, also with the wrong number of channel parameters, decoding inputs, decoding outputs and encoding outputs return Ok or Err and never panic.", "quantifier": "every module value with any number of channel parameters and every data", "why_tests_cant": "unbounded parameter lists", "anchors": ["src/ur20_fbc_mod_tcp.rs: ProcessModbusTcpData", "src/ur20_4ao_ui_16.rs: process_output_data", "src/ur20_4ao_ui_16_diag.rs: process_output_data"]}
{"id": "C53", "title": "Serial reception makes progress", "statement": "After the initialisation of a serial module, once the host has read the input of the module and then processed a cycle, every segment the module had offered before has been received, in order, whatever happens in between; only segments offered before the end of the initialisation can be missing.", "quantifier": "every interleaving of writes, reads, host and device steps, of any length", "why_tests_cant": "it quantifies over all interleavings and all lengths of histories", "anchors": ["src/ur20_1com_232_485_422.rs: MessageProcessor::next, Read for MessageProcessor"]}
{"id": "C54", "title": "Cached values show the process data of the cycle", "statement": "After a cycle whose process images can be decoded, inputs() and outputs() show for every module the values decoded from its own part of the input and the output image given to that cycle; a serial module shows the bytes received in this cycle, or nothing, in inputs(), and in outputs() the bytes of its current output segment, or nothing.", "quantifier": "every reachable coupler, every pair of images, failing and successful cycles", "why_tests_cant": "all configurations, images and histories", "anchors": ["src/ur20_fbc_mod_tcp.rs: Coupler::next", "src/ur20_fbc_mod_tcp.rs: Coupler::inputs", "src/ur20_fbc_mod_tcp.rs: Coupler::outputs"]}
{"id": "C55", "title": "Bytes received by a serial module of a coupler are read in order, exactly once", "statement": "For every coupler containing a serial module on a register boundary (whose bytes no other module claims), in every history of successful cycles in which the device offers segments as specified, the bytes returned by the reader followed by those still readable are the concatenation of the offered segments in order, each once, except for segments offered before the first two cycles were made and possibly the last one, not yet fetched.", "quantifier": "every configuration, every history of requests, reads, writes, cycles and device steps of any length", "why_tests_cant": "unbounded histories at the level of register images", "anchors": ["src/ur20_fbc_mod_tcp.rs: Coupler::next", "src/ur20_fbc_mod_tcp.rs: Coupler::reader", "src/ur20_1com_232_485_422.rs: MessageProcessor::next"]}
{"id": "C56", "title": "Serial communication through a coupler makes progress", "statement": "After the first two cycles: when the program reads the input image, makes a cycle and writes the output image, and the device then looks at it, as many times as segments are outstanding, all bytes handed over before have been taken over by the device, whatever else happens meanwhile; and a cycle with an input image read after a segment was offered makes that segment readable.", "quantifier": "every configuration and every fair history of any length", "why_tests_cant": "unbounded histories, arbitrary interleavings with other requests", "anchors": ["src/ur20_fbc_mod_tcp.rs: Coupler::next", "src/ur20_1com_232_485_422.rs: MessageProcessor::next"]}
{"id": "C57", "title": "Serial transmission survives restarts of the host program", "statement": "However often the program using a serial module is stopped (at any point, losing its memory) and started again with a new message processor, the module takes over a beginning of the bytes written by the first program, then a beginning of those of the second, and so on: no byte twice, none out of order, none of a later program overwritten by one left over from an earlier program. The last program gets all of its bytes across when the dialogue goes on.", "quantifier": "every number of restarts, every crash point, every schedule of host, user and module events of any length", "why_tests_cant": "unbounded schedules and arbitrary crash points, including a segment of the earlier program still in flight", "anchors": ["src/ur20_1com_232_485_422.rs: MessageProcessor::new", "src/ur20_1com_232_485_422.rs: MessageProcessor::next"]}
{"id": "C58", "title": "Serial reception survives restarts of the host program", "statement": "A program started at any point of the dialogue (a segment may be presented and not acknowledged, or acknowledged and still presented) receives the segments offered to it exactly once and in order, except for segments offered before its first two cycles; after an input has been read and processed, everything offered before has arrived.", "quantifier": "every number of restarts, every crash point, every schedule", "why_tests_cant": "unbounded schedules and arbitrary crash points", "anchors": ["src/ur20_1com_232_485_422.rs: MessageProcessor::new", "src/ur20_1com_232_485_422.rs: MessageProcessor::next"]}
{"id": "C59", "title": "Exact condition for a cycle to succeed", "statement": "For every coupler, whatever happened before, `next` succeeds exactly if: every module with an input (output) offset has such data, starts on bit 0 or 8, lies inside the given image and, for serial modules, announces no more bytes than fit; every pending request for a non-serial output is a value its module accepts; every counter preset read back without a request is at most 8388607 us; and the output offsets fill the output image in order without gap. Otherwise it fails (or panics, see C43): with BufferLength if an image cannot be read, ModuleOffsetError if an offset is not usable, ChannelValueError if both images can be read and a request or preset cannot be sent. No other error is returned.", "quantifier": "all reachable couplers, build profiles, hash map orders, and input and output images", "why_tests_cant": "an exact characterisation needs both directions for every configuration, history and image; tests show a few accepted and rejected images", "anchors": ["src/ur20_fbc_mod_tcp.rs: Coupler::next, process_input_data, process_output_data, prepare_raw_data_to_process, process_output_values", "src/ur20_2fcnt_100.rs: process_output_values", "src/ur20_1com_232_485_422.rs: ProcessInput::try_from_byte_message"]}
{"id": "C60", "title": "Start-up from the coupler's registers yields the plugged modules", "statement": "For every rack of at most 64 modules of supported types whose parameter registers are within their documented ranges, a client that reads the module count, the module list, the offset table and the parameter windows at the addresses given by the crate, and passes what it read to Coupler::new, gets a coupler that has exactly the plugged modules in slot order, each with the parameters and process data addresses that the registers show. If a module of an unsupported type is plugged anywhere among supported ones, start-up panics.", "quantifier": "every rack of 1 to 64 slots, every register content that shows it, every value of all other registers, debug and release builds", "why_tests_cant": "there are unboundedly many combinations of modules, parameter values and addresses; a wrong window, count or order shows only for certain neighbours", "anchors": ["src/ur20_fbc_mod_tcp.rs: Coupler::new, CouplerConfig, param_register_count, param_addresses_and_register_counts, module_list_from_registers, offsets_of_process_data, ADDR_*"]}
{"id": "C61", "title": "Which messages to serial modules are shown", "statement": "In every cycle whose images can be decoded, outputs() shows for each serial module that exchanges data in both directions the data of the message in the output image of that cycle, unless the message has no data or its transmit counter equals that of the message just before it (in the same cycle to a serial module in an earlier slot, else the last one of the cycles before; 0 if there is none). In particular, with two or more serial modules a message is hidden or repeated depending on its neighbours.", "quantifier": "every configuration, every history of calls, every pair of images, every serial module", "why_tests_cant": "the rule depends on the whole history and on all other serial modules", "anchors": ["src/ur20_fbc_mod_tcp.rs: Coupler::next, Coupler::outputs", "src/ur20_1com_232_485_422.rs: ProcessOutput"]}
{"id": "C62", "title": "With one serial module, everything sent is shown exactly once", "statement": "If one serial module exchanges data in both directions and the client gives each cycle the output image returned by the one before, the bytes shown in outputs() over any number of cycles are exactly the bytes handed over for transmission, in order, without loss or repetition, except those that have not been sent yet and the segment sent by the last cycle.", "quantifier": "every reachable coupler with such a module, every sequence of writes, reads, settings and cycles, every input image", "why_tests_cant": "arbitrary interleavings of writes, acknowledgements and cycles", "anchors": ["src/ur20_fbc_mod_tcp.rs: Coupler::next, Coupler::outputs, Coupler::writer", "src/ur20_1com_232_485_422.rs: MessageProcessor::next"]}
{"id": "C63", "title": "What is set in one cycle is shown in the next", "statement": "If a value requested with set_output is sent by a successful cycle and the returned image is given to the next cycle, outputs() then shows this value: digital outputs exactly, counter presets in whole microseconds with their command, analog values within little more than one code step, Disabled on an active analog channel as the lower end of its range. Channels without a request show the same value as before (analog channels with format S7: within one step). This holds for every output module whose bytes of the image are its own (with the exceptions of C42).", "quantifier": "every reachable coupler, every set of requests, all images, every module and channel", "why_tests_cant": "all configurations, offsets, values and histories", "anchors": ["src/ur20_fbc_mod_tcp.rs: Coupler::set_output, Coupler::next, Coupler::outputs"]}
{"id": "C64", "title": "A coupler has no hidden memory", "statement": "Besides its configuration a coupler remembers only pending requests and the state of its serial modules: two couplers that agree in these return the same results for every sequence of calls and, after each successful cycle, show the same inputs and the same outputs of all other modules than serial ones, whatever happened to them before. In particular a coupler without serial modules that has no pending requests behaves like a new one.", "quantifier": "every pair of reachable couplers, every sequence of calls, all images", "why_tests_cant": "arbitrary pairs of histories", "anchors": ["src/ur20_fbc_mod_tcp.rs: Coupler"]}
{"id": "C65", "title": "Cycles with unreadable images leave no trace", "statement": "A cycle that returns BufferLength (a truncated or damaged process image) changes nothing but the input values shown: leaving such cycles out of any sequence of set_output, reader, writer and next calls gives the same answers to all other calls and the same outputs, pending requests and serial data at the end. For a coupler whose offsets are on bit 0 or 8 with packed outputs, next returns BufferLength exactly if some module's data cannot be read from the images.", "quantifier": "all reachable couplers, all sequences of calls with any images, both build profiles", "why_tests_cant": "a disturbed cycle may come at any point of any history; tests can insert a few", "anchors": ["src/ur20_fbc_mod_tcp.rs: Coupler::next, process_input_data, process_output_data, process_output_values, prepare_raw_data_to_process"]}
{"id": "C66", "title": "A module behaves the same in every coupler", "statement": "What a module shows and what is sent to it depend only on the calls that concern it: requests for its channels, reading and writing its serial data, and its own bytes of the two images of each cycle. Two couplers of any modules with a module of the same kind and parameters anywhere in them, used by any calls whose cycles succeed, give the same answers about that module - results of its calls, its bytes of the new output image, its input values and (unless it is a serial module) its output values - if the calls that concern it are the same.", "quantifier": "every two reachable couplers of any modules, every place of the module in them (on register boundaries, not overlapped by later modules), every two sequences of calls of any length", "why_tests_cant": "it is a statement about pairs of executions of different racks, for all neighbours and all calls to them", "anchors": ["src/ur20_fbc_mod_tcp.rs: Coupler::next, set_output, reader, writer, process_input_data, process_output_data, process_output_values"]}
{"id": "C67", "title": "Serial dialogue of a coupler survives restarts of the program", "statement": "The program that drives a coupler is stopped at any points and started again, each time with a newly built coupler (possibly configured differently, as long as the serial module keeps its place) and with the process images read back. The serial module then takes over a beginning of what the first program handed over for it through writers or output requests, followed by a beginning of what the second handed over, and so on; the last program gets everything across within two rounds more than there are segments; and it reads the segments offered to it in order and once each, except some offered before its first two cycles.", "quantifier": "every number of restarts, every crash point, every interleaving of calls, cycles and module activity, every configuration and position of the module", "why_tests_cant": "unbounded histories, arbitrary crash points, arbitrary neighbours of the module", "anchors": ["src/ur20_fbc_mod_tcp.rs: Coupler::new", "src/ur20_fbc_mod_tcp.rs: Coupler::next", "src/ur20_fbc_mod_tcp.rs: Coupler::reader", "src/ur20_fbc_mod_tcp.rs: Coupler::writer", "src/ur20_1com_232_485_422.rs: MessageProcessor::next"]}
{"id": "C68", "title": "Debug and release builds do the same", "statement": "Every sequence of calls that completes without a panic in a debug build gives the same results and the same coupler in a release build. If no module's output address lies below the output process image the two builds cannot be told apart in either direction; whatever the addresses, a cycle succeeds in one build if and only if it succeeds in the other, with the same image. Start-up behaves alike unless the debug build reports an overflow.", "quantifier": "every coupler, every sequence of public calls, every process image, every iteration order of the hash maps", "why_tests_cant": "tests run in one build profile; the claim compares two builds on all inputs and histories", "anchors": ["src/ur20_fbc_mod_tcp.rs: Coupler::next", "src/ur20_fbc_mod_tcp.rs: prepare_raw_data_to_process", "src/ur20_fbc_mod_tcp.rs: param_addresses_and_register_counts", "src/ur20_2fcnt_100.rs: process_output_values", "src/ur20_1com_232_485_422.rs: inc_cnt"]}
{"id": "C69", "title": "Serial transmission over a disturbed communication", "statement": "Every byte handed over for a serial module is taken over by it exactly once and in order, also if reading inputs or writing outputs fails at times, if next is given incomplete or damaged images, and if the program reads the output image back from the coupler instead of keeping the one it has computed.", "quantifier": "All rack layouts, all histories of calls, cycles, reads, failed writes, unreadable images and read-backs of the output image, all behaviours of the serial module within its protocol.", "why_tests_cant": "The faults can hit at every point of every dialogue; the interleavings are unbounded.", "anchors": ["src/ur20_fbc_mod_tcp.rs: Coupler::next", "src/ur20_fbc_mod_tcp.rs: process_input_data", "src/ur20_1com_232_485_422.rs: MessageProcessor::next"]}
{"id": "C70", "title": "Serial reception over a disturbed communication", "statement": "After the first two cycles, failed reads and writes, unreadable images and reading back the output image never make a program miss, repeat or reorder bytes a serial module offers; and a cycle with a fresh input image fetches everything that had been offered.", "quantifier": "All rack layouts, all histories of calls, cycles, reads, failed writes, unreadable images and read-backs of the output image, all segments offered.", "why_tests_cant": "The faults can hit at every point of every dialogue; the interleavings are unbounded.", "anchors": ["src/ur20_fbc_mod_tcp.rs: Coupler::next", "src/ur20_1com_232_485_422.rs: MessageProcessor::next"]}
{"id": "C71", "title": "Outputs of a control loop keep what was requested last", "statement": "A program creates a coupler and then repeatedly calls next() with fresh inputs and, as output image, what the previous successful next() returned. Then, for every digital output module whose part of the image is its own, the image returned by the last successful cycle holds for each channel the value of the last set_output for that channel made before that cycle - no matter how many cycles ago, what was requested elsewhere, which serial bytes were exchanged and how many cycles failed for lack of data in between; a channel never requested keeps the state it had in the first image. For every output channel that is read back exactly (digital, counters, analog format S5), outputs() shows the value of the last request before the last successful cycle but one.", "quantifier": "all reachable couplers, all first images, all finite interleavings of set_output, read, write, successful cycles and cycles failing with BufferLength, all build profiles, all output modules with their own bytes, all channels", "why_tests_cant": "The value must survive an arbitrary number of read-modify-write cycles with arbitrary activity on the other channels; a test runs one or two cycles.", "anchors": ["src/ur20_fbc_mod_tcp.rs: Coupler::set_output, Coupler::next, ProcessModbusTcpData", "src/util.rs: u8_to_u16, shift_data"]}
{"id": "C72", "title": "A control loop that has started goes on", "statement": "After one next() has returned an image, and whatever the program has done since (set_output, serial reads and writes, further cycles with any images, successful or not), a next() that is given this image as output image succeeds exactly when its input image can be decoded and every pending request is one its module can send. A request that cannot be sent costs one cycle only: the next cycle with the last returned image succeeds again, with all acceptable requests made since. A loop can be started with an image of zeros that covers all outputs.", "quantifier": "all reachable couplers in which no module with more than two output bytes starts in the middle of a register, all histories of calls, all input images, all build profiles", "why_tests_cant": "It speaks about every image the crate can return and every history between two cycles; a test checks a handful of images.", "anchors": ["src/ur20_fbc_mod_tcp.rs: Coupler::next, Coupler::set_output, process_output_values, prepare_raw_data_to_process"]}
{"id": "C73", "title": "Start-up succeeds exactly for racks of supported, well configured modules", "statement": "For every content of the registers of a field bus coupler that reports at most 64 modules, the documented start-up sequence (read the module count, the module list, the data offsets and the parameter windows at the addresses the crate gives, then create the coupler) succeeds if and only if the registers show a non-empty rack of supported modules whose parameters are within their documented ranges. Every failure is explained: RegisterCount exactly without modules, UnknownModule exactly when some id is unknown, ChannelParameter exactly when the first slot that is not fine has a parameter out of range, and a panic exactly for a known module without support. No other error or panic occurs. With more than 64 modules a checked build never starts.", "quantifier": "all functions from register addresses to 16-bit values, both build profiles", "why_tests_cant": "There are 2^16 values for each of 65536 registers; an equivalence about all of them cannot be sampled.", "anchors": ["src/ur20_fbc_mod_tcp.rs: module_list_from_registers, param_addresses_and_register_counts, Coupler::new, ADDR_CURRENT_MODULE_COUNT, ADDR_CURRENT_MODULE_LIST, ADDR_MODULE_OFFSETS, ADDR_MODULE_PARAMETERS", "src/lib.rs: ModuleType::try_from_u32", "src/ur20_*.rs: from_modbus_parameter_data"]}
{"id": "C74", "title": "A coupler stores only what it has to", "statement": "In every reachable state there is at most one pending request per channel, so at most as many as the coupler has channels, exactly one pair of buffers per serial module, and no more queued chunks than queued bytes. Over any history the unread bytes of a serial module plus the bytes fetched grow by at most one message payload per cycle, and the bytes waiting to be sent (queued or in a pending request) grow by at most the bytes the program hands over. A program that fetches and waits for transmission can run forever without its memory growing.", "quantifier": "all reachable couplers, all finite histories of calls with any images, both build profiles", "why_tests_cant": "A leak shows only in long runs; the bound is about all histories of any length.", "anchors": ["src/ur20_fbc_mod_tcp.rs: Coupler::set_output, Coupler::next, Coupler::reader, Coupler::writer", "src/ur20_1com_232_485_422.rs: MessageProcessor"]}
{"id": "C75", "title": "Default modules and messages are harmless and consistent", "statement": "Default::default() exists for exactly the module types the crate supports and yields the module that the standard parameter registers of that type configure (complete, in range, analog channels and diagnostics off), so that all properties of configured modules hold for it. A default analog input module shows every channel as disabled for every process data; a default analog output module sends zeros for every accepted request and shows its channels as disabled; the default serial and counter messages are exactly those encoded by zeros.", "quantifier": "all 63 module types, all process data, all requested values, both build profiles, both serial process data lengths", "why_tests_cant": "The upstream tests check a few fields; the statement quantifies over all process data and requests and ties each default to a configuration.", "anchors": ["src/ur20_*.rs: impl Default", "src/ur20_fbc_mod_tcp.rs: ProcessModbusTcpData"]}
{"id": "C76", "title": "Each call returns only certain errors, and errors are told apart by their texts", "statement": "The module list can only be refused with RegisterCount or UnknownModule; Coupler::new only with BufferLength, ModuleOffset or ChannelParameter; set_output only with Address; a cycle (next) of any coupler a program can hold, whatever its offsets, requests and received registers, only with BufferLength, ModuleOffset or ChannelValue. So none of these calls ever returns UnknownCategory, SequenceNumber, DataLength or Io. Two errors that are displayed alike are equal (also for all texts of I/O errors), and the description is the displayed text, without the prefix for I/O errors.", "quantifier": "all register lists, configurations, addresses, values, histories of public calls, process images, build profiles, and all errors including I/O errors with any text", "why_tests_cant": "Absence of an error variant over all inputs and histories cannot be observed by finitely many calls; the texts of I/O errors are arbitrary strings.", "anchors": ["src/error.rs: impl fmt::Display for Error, Error::description", "src/ur20_fbc_mod_tcp.rs: Coupler::new, set_output, next, module_list_from_registers"]}
{"id": "C77", "title": "Measured values keep the order and the resolution of the registers", "statement": "On every enabled channel of an analog, resistance or thermocouple input, the shown number is finite (only a thermocouple with a broken line shows nothing), a larger register value is always shown as a larger f32 and different register values are never shown as equal f32; the same holds for the values read back from analog outputs. Therefore comparing two rows of inputs() with == after any two successful cycles detects exactly the changes of the registers of the enabled channels of the module (for a module on a register boundary).", "quantifier": "all module settings and ranges, all pairs of 16-bit register values, all process images, all reachable couplers and histories", "why_tests_cant": "Each range and format has 2^32 pairs of register values, and rounding to f32 could merge or swap any of them; change detection quantifies over all images and histories.", "anchors": ["src/util.rs: u16_to_analog_ui_value", "src/util.rs: u16_to_rtd_value", "src/ur20_4ai_tc_diag.rs: u16_to_thermal_value", "src/ur20_8ai_i_16_diag_hd.rs: process_input_data", "src/ur20_fbc_mod_tcp.rs: next, inputs"]}
{"id": "C78", "title": "Calls between cycles can be interleaved in any order", "statement": "In every history, calls between two cycles may change places as long as requests for the same channel, reads from the same module and writes to the same module keep their order: the changed order is possible, every call gets the same answer, and the coupler at the end behaves the same for ever. So tasks that share a coupler and use different channels and different directions of the serial modules each see the same answers under every schedule.", "quantifier": "all racks, reachable couplers, histories with any number of calls and cycles, all permitted reorderings, all schedules of any number of tasks", "why_tests_cant": "The number of interleavings grows exponentially with the number of calls, and the equality of the final couplers is about all later calls.", "anchors": ["src/ur20_fbc_mod_tcp.rs: set_output, reader, writer, next", "src/ur20_1com_232_485_422.rs: MessageProcessor"]}
{"id": "C79", "title": "A cycle depends only on the bytes at the places of the modules", "statement": "If the places of all modules can be read in two pairs of process images and both pairs have the same bytes there, a cycle gives the same result (image or error), shows the same values and leaves couplers that behave the same for ever; so over any sequence of calls all answers are the same. Registers behind the last one needed change nothing at all.", "quantifier": "all racks and offsets, all reachable couplers, all pairs of images of any length, all sequences of calls", "why_tests_cant": "All images and all later histories.", "anchors": ["src/ur20_fbc_mod_tcp.rs: next, process_input_data, process_output_data, prepare_raw_data_to_process"]}
{"id": "C80", "title": "Comparing shown values with == is exact", "statement": "Two values that inputs() or outputs() show, of any couplers after any histories, are equal under == exactly if they are identical, and so are whole tables. In particular no number shown is NaN, infinite or a negative zero, so a stored snapshot equals itself and a changed snapshot is a changed value.", "quantifier": "all reachable couplers (all racks, parameters, images, call sequences, build profiles), all shown values", "why_tests_cant": "== of f32 is not reflexive for NaN and identifies the zeros; excluding both needs all register contents, ranges, formats and histories.", "anchors": ["src/lib.rs: ChannelValue", "src/ur20_fbc_mod_tcp.rs: inputs, outputs, next", "src/util.rs: u16_to_analog_ui_value, u16_to_rtd_value", "src/ur20_4ai_tc_diag.rs: u16_to_thermal_value"]}
{"id": "C81", "title": "Decoding loses the unused bits and nothing else", "statement": "Two register contents of a module decode to equal values exactly if they agree in all documented bits: the bits of the channels of a digital module, the registers of the enabled channels of an analog module, counts, status and in-range periods of a counter, data and status bits of a serial message, the seven status bits of a safe power feed. So every documented change of the registers is visible in inputs() and outputs(), and a change of unused bits is not.", "quantifier": "all modules with all settings, all pairs of register contents; in couplers all reachable states, images, positions on a register boundary or in the upper byte of a register", "why_tests_cant": "It compares all pairs of register contents of every module configuration, including the float conversions.", "anchors": ["src/lib.rs: ProcessModbusTcpData", "src/ur20_fbc_mod_tcp.rs: inputs, outputs, next", "src/ur20_2fcnt_100.rs: process_input_data, process_output_data", "src/ur20_pf_o_1di_sil.rs: process_input_data", "src/ur20_1com_232_485_422.rs: ProcessInput, ProcessOutput", "src/util.rs: prepare_raw_data_to_process"]}
{"id": "C82", "title": "A control loop holds its analog outputs", "statement": "In a program that hands the image of each cycle to the next one, the register of an analog output channel holds the code of the value requested last, or its initial code if there was no request, for any number of cycles, other requests, serial traffic and failing cycles. With format S7 it can lose up to 5 steps towards zero in all, never passing a multiple of 27; with S5 nothing. The physical value is thus within 1.01 steps (S5) or 6.01 steps (S7) of the request. Disabled channels are sent as 0.", "quantifier": "all control loops of any length, all racks, ranges, formats and requested values", "why_tests_cant": "It is about loops of unbounded length and all float values; the drift only shows for some codes and accumulates over cycles.", "anchors": ["src/ur20_fbc_mod_tcp.rs: next, set_output, process_output_values", "src/ur20_4ao_ui_16.rs: process_output_data, process_output_values", "src/ur20_4ao_ui_16_diag.rs: process_output_data, process_output_values", "src/util.rs: analog_ui_value_to_u16, u16_to_analog_ui_value"]}
{"id": "C83", "title": "A coupler shows the physical values at its terminals", "statement": "After every successful cycle of any rack, inputs() and outputs() hold for each channel of each non-serial module the physical value its registers in the process images stand for: the bit of a digital channel, the voltage, current, resistance or temperature within the stated rounding, the period (125 ns units), count and gate of a counter, the preset (microseconds) and command of a counter output, the status bits of a safe power feed. A module that shares a register shows the half that is its own.", "quantifier": "all reachable couplers, racks, module settings, channels and process images", "why_tests_cant": "It composes addressing, slicing and decoding for all modules, positions and all register contents; tests fix one of them at a time.", "anchors": ["src/ur20_fbc_mod_tcp.rs: next, inputs, outputs, process_input_data, process_output_data", "src/ur20_fbc_mod_tcp.rs: prepare_raw_data_to_process", "src/util.rs: u16_to_analog_ui_value, u16_to_rtd_value, test_bit_16", "src/ur20_2fcnt_100.rs: process_input_data, process_output_data"]}
{"id": "C84", "title": "The serial dialogue follows its rules whatever the module answers", "statement": "For every history of a coupler with any number of serial modules, with arbitrary input and output images (correct, repeated, nonsensical) and with cycles failing because of incomplete images in between: the bytes handed over for a serial module are exactly those put into messages with a new transmit counter, in order, followed by those waiting; the bytes of messages with a new receive counter are exactly those read by the program, followed by those waiting to be read. Each message obeys the handshake: two initialising messages, then the receive counter is acknowledged, a new segment of 1 to payload-size bytes is sent under the successor of the acknowledged counter just if there is one and that counter is free, and otherwise the message is repeated unchanged.", "quantifier": "all racks, all histories of set_output, reads, writes and cycles of any length, all images", "why_tests_cant": "It quantifies over all behaviours of the remote module, including faulty ones, and over histories of unbounded length.", "anchors": ["src/ur20_fbc_mod_tcp.rs: next, reader, writer, set_output", "src/ur20_1com_232_485_422.rs: MessageProcessor::next, Read for MessageProcessor, Write for MessageProcessor"]}
{"id": "C85", "title": "A cycle puts the requested values on the wire", "statement": "In the output image returned by a successful cycle, the registers of an output module that has its part of the image for itself carry, for every channel, the requested value, or the value outputs() shows if nothing is requested: the switched bit, the analog code less than 1.01 from the exact code (saturated, zero for NaN and Disabled), the preset in whole microseconds (at most 8388607) and the start or stop bit of a counter. The requests are used up.", "quantifier": "all reachable couplers, racks, module settings, channels, requested values and process images", "why_tests_cant": "It composes requests, read back, encoding and image layout for all modules, positions and values; tests fix one of them at a time.", "anchors": ["src/ur20_fbc_mod_tcp.rs: next, set_output, process_output_values", "src/util.rs: analog_ui_value_to_u16, set_bit_16", "src/ur20_2fcnt_100.rs: process_output_values", "src/ur20_4ao_ui_16.rs: process_output_values"]}
{"id": "C86", "title": "Two programs exchange bytes over a serial line without loss or reordering", "statement": "Two programs with a coupler and a serial module each, the modules connected by a line that keeps the order of the bytes: once both programs have made two cycles and before anything has been received, every byte handed over on one side (writer or set_output) is from then on, in order and exactly once, read by the program on the other side, ready to be read there, in the other module, on the line, in the output image or waiting in the own coupler. With enough rounds, once the line has carried the bytes and after one cycle of the receiving program, all of them are read or ready to be read.", "quantifier": "all pairs of racks, builds, process data lengths, offsets, calls of both programs, interleavings of both programs and both modules, and delays of the line", "why_tests_cant": "It ranges over all interleavings of two programs and two modules and over all byte streams; a test fixes one schedule.", "anchors": ["src/ur20_1com_232_485_422.rs: MessageProcessor::next, read, write", "src/ur20_fbc_mod_tcp.rs: next, reader, writer, set_output"]}
{"id": "C87", "title": "A program that copies inputs to outputs reproduces the signals", "statement": "If the value shown for an input channel after a cycle is requested for an output channel (of the same or another coupler), the next successful cycle outputs the same bit for digital channels. For current and voltage channels with the same range it outputs the same code if both have format S5; the same code or the one next to it towards zero if both have format S7 (the same for multiples of 27); and in every combination of formats a code less than 1.07 from the exact one, limited to the largest and smallest code. Disabled channels output zero.", "quantifier": "all pairs of reachable couplers, racks, module settings, channels, process images and codes", "why_tests_cant": "It composes decoding, the cached values, requests, encoding and the image layout for all codes, ranges, formats and positions.", "anchors": ["src/ur20_fbc_mod_tcp.rs: next, inputs, set_output", "src/util.rs: u16_to_analog_ui_value, analog_ui_value_to_u16"]}
{"id": "C88", "title": "The frequency of a counter is its count over its period, and keeps the order", "statement": "After every successful cycle, the frequency of a counter channel is its count divided by the period in its registers (units of 125 ns), with a relative error of at most 2^-21. A period of 0x07FFFFFF or more gives no frequency; a period of zero gives infinity, or no number if nothing was counted. A counter that counted as much or more in the same or a shorter period never shows a lower frequency.", "quantifier": "all reachable couplers, racks, counter channels, periods, counts and pairs of them", "why_tests_cant": "It needs the accuracy and the monotonicity of four rounded float operations for all 2^64 pairs of registers, at all positions of the image.", "anchors": ["src/ur20_2fcnt_100.rs: hertz, process_input_data", "src/ur20_fbc_mod_tcp.rs: next, inputs"]}
{"id": "C89", "title": "The standard library's I/O methods work on serial modules", "statement": "On the writer of a serial module, write_all always succeeds, is indistinguishable from one call of write, and appends all bytes to those waiting to be sent. On the reader, read_exact returns the oldest received bytes if there are enough and otherwise fails with all received bytes gone; read_to_end ends and returns all received bytes, whatever buffers it uses, and leaves none. None of them changes anything else.", "quantifier": "all couplers, serial modules, byte strings, sizes and sequences of buffer sizes", "why_tests_cant": "The loops of the standard library call read and write with sizes of their own choice, any number of times, in any state of the module.", "anchors": ["src/ur20_1com_232_485_422.rs: impl Read for MessageProcessor, impl Write for MessageProcessor", "src/ur20_fbc_mod_tcp.rs: reader, writer"]}
{"id": "C90", "title": "All output images of a coupler have the same size", "statement": "In every history of calls, every image that next returns has the same number of registers: the sum over the modules with an output offset on a register boundary of the registers of their data. All registers are 16 bit numbers, and an image is never longer than the output image that was read back.", "quantifier": "all reachable couplers, racks and layouts, histories of calls with failing cycles among them, requests and process images", "why_tests_cant": "It is an invariant over all histories and layouts; a test sees the image of one cycle of one rack.", "anchors": ["src/ur20_fbc_mod_tcp.rs: next, process_output_values"]}
{"id": "C91", "title": "Saved outputs can be restored", "statement": "What outputs() shows after a cycle without requests is complete: if a program stores these values and later - after any other history, or after a restart with a new coupler of the same configuration - requests all of them again with set_output, in any order, the next cycle succeeds exactly if the two images given to it can be read, and returns the same image as the first cycle in all bytes but those of serial modules, whatever the outputs were meanwhile and whatever was requested before; the cycle after that shows the saved values again (analog outputs with format S7 within the resolution of C63).", "quantifier": "every reachable coupler and cycle that values are saved from, every reachable coupler with the same modules that they are restored to, every order of requests, every pair of images", "why_tests_cant": "It relates two unrelated histories of any length and every module mix, and needs that decoding followed by encoding loses nothing for any register content.", "anchors": ["src/ur20_fbc_mod_tcp.rs: Coupler::outputs, Coupler::set_output, Coupler::next, process_output_data, process_output_values"]}
{"id": "C92", "title": "Every channel shows only values of its own kind", "statement": "At any time, also after cycles that failed, inputs() and outputs() hold for a channel only values of the kind that belongs to its module and its settings: bits for digital channels, finite numbers for enabled and Disabled for disabled analog channels, the counter, preset and power feed structures with fields in range, None for thermocouples without a sensor and for a direction that the module does not have. After every successful cycle a serial module with inputs and outputs shows None or at least one and at most a full segment of bytes, never its raw process data (these appear only after a cycle that failed because of the output image, or if one of the directions is missing).", "quantifier": "every reachable coupler (any configuration and history, failed cycles included), every module and channel", "why_tests_cant": "A program matches on the variants; that no other variant ever appears is a statement about all histories, images and module settings.", "anchors": ["src/ur20_fbc_mod_tcp.rs: Coupler::inputs, Coupler::outputs, Coupler::next", "src/lib.rs: ChannelValue"]}
{"id": "C93", "title": "No output bit is set without a meaning", "statement": "Every bit that is set in an image returned by next is one that has a documented meaning for some module with its output there: a bit of an existing digital channel, a bit of an enabled analog channel, of a counter preset (23 bits) or a start or stop command, of the status, length or data of a serial message. Bits between and behind the modules, of disabled channels and reserved bits are always zero, also if they were set in the output image that was read back. Serial messages are filled up with zeros behind the announced data.", "quantifier": "all reachable couplers, racks, layouts (overlapping ones included), requested values, process images and bits", "why_tests_cant": "That nothing else is ever switched on is a statement about all images, requests and layouts.", "anchors": ["src/ur20_fbc_mod_tcp.rs: Coupler::next, process_output_values", "src/ur20_do_generic.rs: process_output_values", "src/ur20_2fcnt_100.rs: process_output_values", "src/ur20_4ao_ui_16.rs: process_output_values"]}
{"id": "C94", "title": "The message processor may be used with any messages", "statement": "A MessageProcessor that is used directly loses, repeats or reorders nothing whatever messages it is given, also such that no serial module sends (counters of any size, data of any length): the bytes written are the bytes of the new messages followed by those still queued, and the bytes read are those received. After the two initialisation steps every message acknowledges the received one and either repeats counter and data of the given message or carries the counter following the acknowledged one with at least one byte and no more than fit. It never returns an error; it panics exactly if, in a debug build, something is queued after the initialisation and the acknowledged counter is the largest usize.", "quantifier": "all histories of write, read and next calls with all messages of the Rust types, both message lengths, debug and release builds", "why_tests_cant": "The counters range over all usize values and the histories are unbounded.", "anchors": ["src/ur20_1com_232_485_422.rs: MessageProcessor, next, inc_cnt, Read for MessageProcessor, Write for MessageProcessor"]}
{"id": "C95", "title": "Own module implementations take part in the process images like those of the crate", "statement": "The public functions process_input_data, process_output_data and process_output_values treat a module of any implementation of ProcessModbusTcpData alike: a module without an offset gives a row of None; a module with an offset is given exactly its registers of the image (half of the announced bytes, at least one; in the middle of a register the bytes from there on and a zero byte), and its row is what it makes of them; the result fails exactly with the failure of the first failing module (announced registers outside the image, an offset that is not at a byte, or its own). Output data are laid out one after the other, and the function fails exactly for a wrong number of rows, an offset that does not continue the image, the module's own failure, or (panic) empty data in the middle of a register. For the modules of the crate these are the functions of the coupler. An implementation that overrides nothing can take part only without offsets.", "quantifier": "all implementations of the trait (as functions), all lists of modules with all offsets, all images and values, debug and release builds", "why_tests_cant": "The trait is public: the implementations, their byte counts and the data they return cannot be enumerated.", "anchors": ["src/ur20_fbc_mod_tcp.rs: ProcessModbusTcpData, process_input_data, process_output_data, process_output_values, prepare_raw_data_to_process"]}
{"id": "C96", "title": "A cycle reports the first problem", "statement": "After any history, a process cycle fails with an error e if and only if e names the first problem: the first module, in the order of the modules, whose input data cannot be read decides (data outside the image or foreign to the module, or a serial message that announces more than fits: BufferLength; data that do not start at a byte: ModuleOffsetError); if all inputs can be read, the first module whose outputs cannot be read back, in the same way; if these can be read, too, the first module that cannot send (a requested value of the wrong kind or out of range, or a counter preset read back out of range: ChannelValueError; otherwise an offset that does not continue the output image of the modules before it: ModuleOffsetError). It succeeds exactly if there is no problem.", "quantifier": "all reachable couplers whose output offsets are in the output image, all register images, debug and release builds", "why_tests_cant": "The combinations of several problems in several modules, and the histories of requests, cannot be enumerated.", "anchors": ["src/ur20_fbc_mod_tcp.rs: Coupler::next, process_input_data, process_output_data, process_output_values, prepare_raw_data_to_process"]}
{"id": "C97", "title": "Each method of a single module accepts exactly what fits it", "statement": "A module called directly through the Module trait decodes process data exactly when it is given as many registers as the module has (serial modules: exactly when the registers contain the message they announce) and encodes values exactly when there is one value per channel and each is of a kind the module can send. Every refusal has one fixed error: BufferLength for a wrong number of registers, ChannelValue for a wrong number or kind of values, ChannelParameter for a hand-built module that lacks channel settings it needs (but for reading back analog outputs without settings, which is the subject of C52), BufferLength and SequenceNumber for serial messages that are too long or carry a counter above 3. Decoded rows have one value per channel, encoded data has exactly the module's registers. A module without data of a direction decodes an empty list to 'no value' for each channel and encodes to nothing.", "quantifier": "every module that can be built, with any number of channel settings, every register list and every list of values of any length, both build profiles", "why_tests_cant": "register lists, value lists and floating point values are unbounded; an equivalence with a fixed error for every refusal cannot be sampled", "anchors": ["src/ur20_fbc_mod_tcp.rs: ProcessModbusTcpData::process_input_data, process_output_data, process_output_values", "src/ur20_*.rs: the implementations of these methods"]}
{"id": "C98", "title": "A program that works with a coupler through its registers touches only the output area", "statement": "A program that reads the input and output registers at the addresses the crate gives, calls next and writes the returned image to the output registers changes no register outside 0x0800 to 0x0FFF, however long it works, also when cycles fail and whatever it sets, reads and writes in between; so id, status, data lengths, module count, module list, offsets and parameters keep their values at the addresses the crate gives for them, and a program that is started again gets the same coupler. After each exchange the values shown are the physical values of the registers at the module's own address, and the registers at the address of an output module that shares them with no other carry what was requested or is shown.", "quantifier": "every reachable coupler, every content of the registers, every sequence of exchanges, failed exchanges, set_output, read, write calls and changes of the input registers, every module and channel", "why_tests_cant": "It is about every register content and an unbounded history of calls; a write outside the output area depends on the length of the returned image for each combination of modules.", "anchors": ["src/ur20_fbc_mod_tcp.rs: ADDR_PACKED_PROCESS_INPUT_DATA, ADDR_PACKED_PROCESS_OUTPUT_DATA, ADDR_COUPLER_ID, ADDR_COUPLER_STATUS, ADDR_PROCESS_OUTPUT_LEN, ADDR_PROCESS_INPUT_LEN, ADDR_CURRENT_MODULE_COUNT, ADDR_CURRENT_MODULE_LIST, ADDR_MODULE_OFFSETS, ADDR_MODULE_PARAMETERS", "src/ur20_fbc_mod_tcp.rs: Coupler::next"]}
{"id": "C99", "title": "Programs that take turns on one coupler keep each other's outputs", "statement": "Several programs, each with its own coupler object made from the same registers, take turns in reading the registers, calling next and writing the returned image. However they are scheduled, and whenever they request outputs, get damaged images, have a value refused or are stopped and started again: an output channel of a module that shares its registers with no other module carries the value that was sent last by whichever program requested it, and what it carried at the beginning if none was sent. A digital channel that only one program uses depends on nothing the others do, and each program sees the outputs set by the others after its next exchange.", "quantifier": "every register content and rack the crate supports, every number of programs, every history of requests, exchanges, failures, restarts, serial reads and writes and input changes, every digital, analog (up to the S7 drift of C82) and counter output channel", "why_tests_cant": "It is about all interleavings of an unbounded number of programs and crash points; a test shows one schedule.", "anchors": ["src/ur20_fbc_mod_tcp.rs: Coupler::next, Coupler::set_output, Coupler::new", "src/ur20_fbc_mod_tcp.rs: process_output_data, process_output_values"]}
{"id": "C100", "title": "Interrupted writes never jam the system or invent outputs", "statement": "A program reads the registers, calls next and writes the returned image back, but may be stopped at any moment while writing, so that an arbitrary part of the registers of the image is written; it may be started again, any number of times, and several programs may do so. If no serial message in the output registers is too long and no counter preset is out of range at the beginning (zeros, for example), this stays so for ever, and the next cycle of every program succeeds exactly when the inputs can be decoded and the waiting requests can be sent. A digital or analog output of a module that shares its registers with no other module never carries anything but what it carried at the beginning or a value some program requested for it; a counter is only started or stopped if that was requested, and its preset consists of the upper half of one such preset and the lower half of another.", "quantifier": "every register content and rack the crate supports, every number of programs, every history of calls with any images, complete and interrupted exchanges, restarts and input changes, every set of registers written at each interruption, every output channel", "why_tests_cant": "It is about every crash point in every write of every history, with all combinations of written and unwritten registers.", "anchors": ["src/ur20_fbc_mod_tcp.rs: Coupler::next, Coupler::set_output, Coupler::new", "src/ur20_fbc_mod_tcp.rs: process_output_data, process_output_values", "src/ur20_2fcnt_100.rs: process_output_values", "src/ur20_1com_232_485_422.rs: ProcessOutput::try_from_byte_message"]}
{"id": "C101", "title": "Inputs read while the registers change", "statement": "An input image may be put together from registers read at different times. If the cycle would succeed with the registers as they were at each of these times, it succeeds with the image. The value shown for an input that occupies one register (digital, analog, temperature, safety) is one it had at one of these times. Count and period of a counter occupy two registers each and may be put together from halves of different times, nothing else. Without serial modules what is written to the outputs does not depend on the inputs at all.", "quantifier": "for every reachable coupler, every number of moments, every contents of the registers at these moments, every mixture of them, every module and channel", "why_tests_cant": "a test reads fixed images; the property is about every interleaving of a multi-register read with changes of the inputs", "anchors": ["src/ur20_fbc_mod_tcp.rs: Coupler::next, process_input_data, prepare_raw_data_to_process", "src/util.rs", "src/ur20_2fcnt_100.rs: process_input_data"]}
{"id": "C102", "title": "Serial dialogues survive interrupted writes of the output image if the first register of the message is written last", "statement": "Besides the disturbances of C69 (garbled exchanges that end in an error, and reading the output image back from the coupler), a write of the output image may reach only some of the registers, in any combination and any number of times, as long as the first register of the serial module's message (counters and length) is not written unless all its registers are. Then the bytes the module takes, followed by those on their way and those still waiting, form a subsequence of the bytes the program handed over; nothing is missing unless a computed segment was discarded by reading back, and then at most one segment per time; after two cycles, as many undisturbed rounds as segments are outstanding bring everything over; reception stays exactly-once and in order after two cycles, and a cycle with a fresh input image fetches everything offered. The order is needed: if the first register is written before the others, the module takes bytes the program never handed over.", "quantifier": "all profiles, all couplers with a serial module at any position and offsets, both message lengths, all histories of calls, cycles, exchanges, disturbances and partial writes of any set of registers that keep the order, all payloads and segment contents", "why_tests_cant": "the set of registers written and the moment of the interruption are arbitrary and may repeat; a test fixes one set and one moment", "anchors": ["src/ur20_fbc_mod_tcp.rs: Coupler::next", "src/ur20_1com_232_485_422.rs: MessageProcessor::next, ProcessOutput::try_into_byte_message", "src/util.rs: shift_data, u8_to_u16"]}
{"id": "C103", "title": "A serial module and its programs through restarts, disturbances and interrupted writes", "statement": "A program may be stopped at any moment and started again, any number of times (C67); exchanges may be garbled, and a program may read the output image back and forget what it had computed (C69); a write of the output image may reach only some registers, as long as the registers of the serial message are all written or none of them. Then what the module takes is made up of one part per program, in the order of the programs: some of the bytes that program handed over, in their order, and a beginning of them if it forgot nothing. After its first two cycles, as many undisturbed rounds as segments are outstanding, plus two, bring across everything the last program handed over except at most one segment for each time it forgot one. The last program reads the segments offered to it in order and each once, except some offered before its first two cycles, and a cycle with a fresh input image fetches everything offered. Writing the first register of the message last (C102) is not enough here: the module can then take bytes no program handed over.", "quantifier": "all profiles, all couplers with a serial module at any position and offsets, both message lengths, any number of programs with any configurations that keep the module's place, all histories of calls, exchanges, disturbances and partial writes in each of them, every moment of stopping", "why_tests_cant": "restarts, forgotten images and interrupted writes may be combined in any order and number; a test fixes one combination", "anchors": ["src/ur20_fbc_mod_tcp.rs: Coupler::new, Coupler::next", "src/ur20_1com_232_485_422.rs: MessageProcessor::next, MessageProcessor::new"]}
{"id": "C104", "title": "Two programs talk over a serial line although both sides are disturbed", "statement": "Two programs, each with its own coupler and serial module, are connected by a line that keeps the order of the bytes and loses none. On both sides exchanges may end in an error, output images may be read back, and writes of the output image may be interrupted as in C102 (first register of the message not before the others), in any interleaving of the two sides. Once both have made two cycles and before anything has been received, in each direction the bytes read by the other program, those ready to be read there, those in the other module, on the line, in the output image and waiting in the own coupler form, in this order, a subsequence of the bytes written; missing are at most one process image per time the writing program has forgotten an image it had computed, and none if it never did; what the receiving program forgets costs nothing in this direction. And the bytes arrive: after as many undisturbed rounds of the writing program as segments are outstanding, once the line has carried them and the receiving program has made a cycle with a fresh input image, everything written and not forgotten is read or ready to be read there, whatever else disturbs the receiver.", "quantifier": "all profiles, couplers, positions, offsets and message lengths of both sides, all interleavings of calls, cycles, exchanges, disturbances and partial writes that keep the order on both sides, all payloads and segment contents", "why_tests_cant": "two programs and two modules interleave arbitrarily and every disturbance can hit at any moment on either side; a test fixes one interleaving", "anchors": ["src/ur20_fbc_mod_tcp.rs: Coupler::next, Coupler::read, Coupler::write, Coupler::set_output", "src/ur20_1com_232_485_422.rs: MessageProcessor::next, ProcessInput::try_from_byte_message, ProcessOutput::try_into_byte_message"]}
{"id": "C105", "title": "Serial dialogues survive slow reads of the input image", "statement": "The registers of a serial module may change while the program reads the input image, so that it holds some registers as they were before and others as they are afterwards; besides this, exchanges may be garbled, output images read back and writes interrupted as in C102 (first register of the message not before the others). Whatever is read, in whichever order: the bytes the module takes over are those handed over, in order, none twice and none invented, none missing unless a segment was forgotten as in C69, and once two cycles have been made undisturbed rounds transmit everything left. If moreover the first register of the message is never read after its others and the module offered nothing before two cycles were made, the program reads exactly the segments the module has offered, in order, each once, and a cycle after a read fetches everything offered before that read. Both conditions are needed: with the first register read last bytes are delivered that were never offered, and after a segment offered during the first two cycles a segment can be delivered twice.", "quantifier": "all profiles, all couplers with a serial module at any position and offsets, both message lengths, all histories of calls, cycles, exchanges, disturbances and partial writes that keep the order, and reads during which the module does anything and each register is as it was at any one of the moments", "why_tests_cant": "the moments at which registers are read relative to the steps of the module, and the history before, are unbounded", "anchors": ["src/ur20_fbc_mod_tcp.rs: Coupler::next, Coupler::read, Coupler::write", "src/ur20_1com_232_485_422.rs: MessageProcessor::next, ProcessInput::try_from_byte_message"]}
{"id": "C106", "title": "The flush flags of the initialisation cost no byte of the program", "statement": "The first cycle of a serial module tells the module to discard its transmit and its receive buffer. For a module that obeys these flags whenever it sees them, the flags only ever discard what earlier programs have left in the transmit buffer: what is on the line and in the transmit buffer is always a first part of these leftovers, followed by every byte the module has taken over from the program. From the first output image written after two cycles on, the module never sees the flags again, and every byte that arrives on the line reaches the program in order. This holds with failing cycles and with output images read back, as long as no computed image is forgotten before that first write; if the image of the second cycle is forgotten, the flags stay set for ever and the program's bytes may be discarded.", "quantifier": "all couplers with a serial module, all leftovers in the module's buffers, all interleavings of user calls, cycles, image transfers, bus disturbances, bytes leaving and arriving on the line and moments at which the module obeys the flags", "why_tests_cant": "whether a byte is discarded depends on the order in which the module sees the flags, takes over segments and empties its buffers, which ranges over unboundedly many interleavings", "anchors": ["src/ur20_1com_232_485_422.rs: MessageProcessor::next", "src/ur20_fbc_mod_tcp.rs: Coupler::next"]}
{"id": "C107", "title": "Serial transmission survives delayed and lost messages as long as none overtakes another", "statement": "A program exchanges process images with its coupler over a connection on which any number of input and output images may be under way at the same time, with arbitrary delays, and on which any image may get lost, but no image overtakes another one in the same direction. At every moment the bytes handed over for a serial module are exactly those the module has taken over, followed by the segment on its way and the bytes still waiting. Once two cycles have been made, each round in which an input image sent by the coupler arrives, the program makes a cycle and the output image it then sends arrives and is looked at hands over at least one outstanding segment, whatever other images are under way. Without the order, bytes are taken over twice or get lost.", "quantifier": "all configurations, serial modules, initial process data, all histories of program calls, module events, and of sending, arrival and loss of images in both directions, any number of images under way, debug and release builds", "why_tests_cant": "The interleavings of two unbounded queues of messages with the handshake counters modulo four are unbounded; tests exchange one image at a time.", "anchors": ["src/ur20_fbc_mod_tcp.rs: Coupler::next", "src/ur20_1com_232_485_422.rs: MessageProcessor::next", "src/ur20_1com_232_485_422.rs: MessageProcessor::write"]}
{"id": "C108", "title": "Serial reception survives delayed and lost messages as long as none overtakes another", "statement": "Over the same kind of connection the program reads, once two cycles have been made, the segments the serial module has offered, completely, in order and each exactly once, except at most those offered before. A cycle after the arrival of an input image has fetched everything that had been offered when the coupler sent that image.", "quantifier": "all configurations, serial modules, initial process data, all histories of program calls, module events, and of sending, arrival and loss of images in both directions, any number of images under way, debug and release builds", "why_tests_cant": "Duplicated or skipped segments appear only for certain interleavings of old and new images with the receive counter modulo four; tests exchange one image at a time.", "anchors": ["src/ur20_fbc_mod_tcp.rs: Coupler::next", "src/ur20_fbc_mod_tcp.rs: Coupler::reader", "src/ur20_1com_232_485_422.rs: MessageProcessor::next"]}
{"id": "C109", "title": "Serial transmission costs as few segments and cycles as possible", "statement": "A byte string handed over for transmission with one call (writer, or set_output and the following cycle) is sent in n segments, where n is its length over the size of a segment (6 or 14 bytes), rounded up; every segment that the module takes over has at least one and at most a full segment of bytes, and nothing else adds or removes segments. If everything before has been taken over, n rounds of reading, cycle, writing and the module looking at the message are enough, whatever else happens meanwhile, and fewer than n cycles never are.", "quantifier": "all racks, process data lengths, offsets, byte strings, calls of the program and interleavings with the steps of the module, of any length, in debug and release builds", "why_tests_cant": "the bounds must hold for every length of the byte string, every earlier history and every interleaving; tests send a few bytes in one fixed order", "anchors": ["src/ur20_1com_232_485_422.rs: MessageProcessor::write, MessageProcessor::next", "src/ur20_fbc_mod_tcp.rs: Coupler::next, Coupler::writer"]}
{"id": "C110", "title": "A program controls the flow of serial reception by its cycles", "statement": "A serial module that keeps having received bytes to offer gets rid of at least one segment in every round in which the program reads the input image, makes a cycle and writes the output image, whatever else happens meanwhile; it gets rid of at most as many segments as the program makes cycles, and one in advance, so that a program that makes no cycle stops it. A cycle makes at most one segment readable, completely, and none during the two initialising cycles.", "quantifier": "all racks, process data lengths, offsets, segments, calls of the program and interleavings with the steps of the module, of any length, in debug and release builds", "why_tests_cant": "an acknowledgement that comes too early or too late shows up only for certain interleavings with the receive counter modulo four, and the bounds must hold for histories of any length", "anchors": ["src/ur20_1com_232_485_422.rs: MessageProcessor::next", "src/ur20_fbc_mod_tcp.rs: Coupler::next, Coupler::reader"]}
{"id": "C111", "title": "Every output code can be requested", "statement": "A value whose exact code lies at least a hundredth of a step inside the step that begins at a code and leads away from zero is sent as that code. So for every analog output channel that is not disabled and every one of the 65536 codes there is a finite value, little more than half a step from the exact value of the code, that is sent as that code: a coupler in any state accepts a request for it and its next successful cycle puts exactly this code into the register of the channel.", "quantifier": "all ranges but Disabled, both formats, all codes, all finite values, all racks, channels, reachable states of the coupler, and input and output images", "why_tests_cant": "conversions in single precision arithmetic that skip a code do so only for some of the codes of some of the ranges, and the conversion of a value that was read back does skip codes (C20)", "anchors": ["src/util.rs: analog_ui_value_to_u16", "src/ur20_4ao_ui_16.rs: process_output_values", "src/ur20_4ao_ui_16_diag.rs: process_output_values", "src/ur20_fbc_mod_tcp.rs: Coupler::set_output, Coupler::next"]}
{"id": "C112", "title": "Every state of the outputs can be requested", "statement": "Whatever registers are wanted for the digital outputs, analog outputs and counters of a rack (presets of counters up to 8.388607 s), there is a list of requests that a coupler in any state accepts and after which the next cycle succeeds whenever its images can be read and the offsets of the modules are in order; the registers it returns say what was wanted for all output modules that do not share their registers: the same bits, the same codes in all analog channels that are in use, the same presets and the same commands. The requests depend neither on the images of that cycle nor on earlier requests. No cycle ever returns a larger preset.", "quantifier": "all racks, all wanted registers, all reachable states of the coupler, all pairs of input and output images, debug and release builds", "why_tests_cant": "the wanted states are as many as there are output images, and a code, bit or preset that cannot be reached shows up only for that state", "anchors": ["src/ur20_fbc_mod_tcp.rs: Coupler::set_output, Coupler::next, process_output_values", "src/util.rs: analog_ui_value_to_u16", "src/ur20_2fcnt_100.rs: process_output_values", "src/ur20_do_generic.rs: process_output_values", "src/ur20_16do_p.rs", "src/ur20_4ro_co_255.rs"]}
{"id": "C113", "title": "Bytes for a serial module can be handed over by a request or through its writer", "statement": "A byte string of any length is accepted for a serial module both by set_output and by its writer. If no request is waiting for the module, it makes no difference which way is taken: as long as no further bytes are handed over to this module, every call (requests for other channels, reads, writes to other modules, cycles, failing ones too) gets the same answer and shows the same inputs and outputs, and after a successful cycle every call gets the same answer for ever.", "quantifier": "all racks, reachable couplers, byte strings, histories of calls of any length, debug and release builds", "why_tests_cant": "the two ways use different queues inside the coupler; that no later call can tell them apart is a statement about all histories", "anchors": ["src/ur20_fbc_mod_tcp.rs: Coupler::set_output, Coupler::writer, Coupler::next", "src/ur20_1com_232_485_422.rs: MessageProcessor::write"]}
{"id": "C114", "title": "A program that forwards between two serial modules loses nothing", "statement": "A program reads what one serial module of its coupler has received and writes it to another serial module of the same coupler, and likewise in the other direction, in pieces of any size and at any time, beside anything it does with other modules. Once two cycles have been made and before anything has been received, every byte received by one of the two modules is, in order and exactly once, taken over by the other module, in the output image, waiting in the coupler, held by the program, ready to be read, or in the segment the receiving module offered last; in both directions at the same time. And the bytes arrive: after a cycle with a fresh input image, a read that is large enough, a write of everything the program holds and as many rounds as segments are then outstanding, with anything else in between, the other module has taken over everything received before.", "quantifier": "all racks with two serial modules on register boundaries, both builds, all process data lengths, all interleavings of the program, the two modules and the exchange of process images", "why_tests_cant": "the bytes may be anywhere between the two modules in histories of any length; tests can follow a few of them", "anchors": ["src/ur20_fbc_mod_tcp.rs: Coupler::next, reader, writer", "src/ur20_1com_232_485_422.rs: MessageProcessor::next, Read for MessageProcessor, Write for MessageProcessor"]}
{"id": "C115", "title": "Exactly the serial modules have a reader and a writer, and using one touches nothing else", "statement": "After any history of calls, also with failing cycles, reader(i) and writer(i) give something exactly if the module configured at place i is a serial module (UR20_1COM_232_485_422); for other numbers, also beyond the last module, they give None and nothing changes. A read into a buffer of any size gives the oldest bytes received, as many as fit or are there, and removes just these; a write takes all bytes given, reports their number and appends them to those waiting. Neither changes the values shown, the pending requests, the bytes of the other serial modules, or the bytes of the other direction of the same module.", "quantifier": "all configurations, histories of calls, module numbers, buffer sizes and byte strings", "why_tests_cant": "the state after arbitrary histories and all module numbers", "anchors": ["src/ur20_fbc_mod_tcp.rs: Coupler::reader, Coupler::writer, Coupler::new", "src/ur20_1com_232_485_422.rs: Read for MessageProcessor, Write for MessageProcessor"]}
{"id": "C116", "title": "Bytes pass through a program in the middle from one end of a row to the other", "statement": "Three programs stand in a row: the serial module of the first one is connected by a line to a serial module of the second one, whose other serial module is connected by another line to the serial module of the third one, and the second program forwards what it receives in both directions. Once all programs have made two cycles and before anything has been received, every byte written at one end is from then on, in order and exactly once, with the program at the other end, or in one of the places in between: ready to be read, in a module, on a line, in an output image, waiting in a coupler, or held by the program in the middle; in both directions at the same time, whatever the programs and the modules do and in any order. And the bytes arrive: as many rounds of the sender as segments are outstanding, the line carries them, a cycle with a fresh input image, a large enough read and a write of all that is held by the program in the middle, as many rounds of it as segments are then outstanding, the second line carries them, and a cycle with a fresh input image, with anything else in between.", "quantifier": "all racks of the three programs with serial modules on register boundaries, each in either build, all process data lengths, all interleavings of the programs, modules, lines and the exchange of process images", "why_tests_cant": "the bytes may be in twelve places at once in histories of any length and interleaving; tests can follow a few of them", "anchors": ["src/ur20_fbc_mod_tcp.rs: Coupler::next, reader, writer", "src/ur20_1com_232_485_422.rs: MessageProcessor::next, Read for MessageProcessor, Write for MessageProcessor"]}
{"id": "C117", "title": "Bytes pass along a row of any number of forwarding programs", "statement": "Any number of programs stand in a row, each connected to the next one by a serial line; the programs in between forward what they receive from one serial module to the other one, in both directions. Once all programs have made two cycles and before anything has been received, every byte written at one end is from then on, in order and exactly once, with the program at the other end or at one of the places along the row: waiting in a coupler, in an output image, on a line, in a module, ready to be read, or held by one of the programs; in both directions, whatever the programs and modules do and in any order. And the bytes arrive at the other end when the programs forward one after the other.", "quantifier": "all numbers of programs, all racks of them with serial modules on register boundaries, either build, all process data lengths, all interleavings of programs, modules, lines and exchanges of process images", "why_tests_cant": "the number of programs, the length of histories and the interleavings are unbounded", "anchors": ["src/ur20_fbc_mod_tcp.rs: Coupler::next, reader, writer", "src/ur20_1com_232_485_422.rs: MessageProcessor::next, Read for MessageProcessor, Write for MessageProcessor"]}
{"id": "C118", "title": "Every combination of parameters can be set up from a program", "statement": "A program that builds the parameter registers itself, writing the number behind each chosen variant (to_u16), reaches every parameter combination the library can represent: the numbers of the enumerations and their variants determine each other; registers of the module's length lead to a module exactly when they hold that module's parameters, for every structure with the module's number of channels, limits in i16 and one-byte XON and XOFF characters; and a coupler can be built for a rack of any such modules and then has exactly these modules.", "quantifier": "all 19 enumerations, all supported module types, all parameter structures, all register contents, all racks", "why_tests_cant": "the parameter combinations of a single RTD module already number more than 10^40; the racks are unbounded", "anchors": ["src/lib.rs: ChannelParameter enums (ToPrimitive, FromPrimitive)", "src/ur20_fbc_mod_tcp.rs: Coupler::new", "src/ur20_1com_232_485_422.rs: Mod::from_modbus_parameter_data", "src/ur20_4ai_rtd_diag.rs: Mod::from_modbus_parameter_data", "src/ur20_4ai_tc_diag.rs: Mod::from_modbus_parameter_data"]}
{"id": "C119", "title": "Signals pass along a row of any number of racks", "statement": "Programs in a row each copy an input of their rack to an output that is wired to an input of the next rack. A digital signal arrives unchanged whatever the number of programs. A current or voltage never leaves the 1024th of the range in which its code started (codes from one multiple of 16 to the next with format S5, of 27 with S7), whatever the number of programs and the mix of formats: a multiple arrives exactly, and any signal differs by at most a 1024th of the range in all (up to code 1213 * 16 or 1213 * 27). If all channels have format S5 the code arrives unchanged; if all have S7 it loses at most 5 towards zero. Disabled channels pass on zero.", "quantifier": "all numbers of programs, all racks and reachable couplers, all positions, channels, ranges and mixes of formats, all codes", "why_tests_cant": "the number of programs and the mixes of formats are unbounded, and the loss accumulates over them only for some codes", "anchors": ["src/ur20_fbc_mod_tcp.rs: Coupler::next, inputs, set_output", "src/util.rs: u16_to_analog_ui_value, analog_ui_value_to_u16"]}
{"id": "C120", "title": "A digital control program computes what it is written to compute", "statement": "A program that in every round requests on, off or nothing for each of its digital outputs, makes a cycle with the input image it read and the image of the round before, looks at its digital inputs and computes its next state and commands from them, switches its outputs exactly as if it worked on the bits of its inputs and outputs directly: an output has the bit last commanded, and keeps it as long as nothing is commanded. This holds for every such program and any number of rounds, whatever the program does beside it with other modules (requests, serial bytes, cycles with damaged images) and whatever is in the rest of the images. After a successful cycle there is always a next round for input images the coupler can read.", "quantifier": "all programs with any type of state, all reachable couplers, all positions of digital modules, all histories of rounds and actions in between, all images", "why_tests_cant": "the programs, their states and the histories are unbounded", "anchors": ["src/ur20_fbc_mod_tcp.rs: Coupler::next, inputs, set_output", "src/ur20_di_generic.rs, src/ur20_do_generic.rs, src/ur20_16do_p.rs, src/ur20_4ro_co_255.rs"]}
{"id": "C121", "title": "A control program works on the physical values at its terminals", "statement": "A program that in every round requests a value for each of its outputs (digital, analog or counter presets), makes a cycle with the input image it read and the image of the round before, looks at its inputs and computes its next state and values from them, does what it would do if it worked on the terminals directly: in every round the registers of its outputs carry the values it computed in the round before, and it computes the next ones from the physical values in the registers of its inputs (bits, currents, voltages, resistances, temperatures, counts). This holds for every such program and any number of rounds, whatever it does beside it with other modules. If it computes only values that its outputs accept, there is always a next round for input images the coupler can read.", "quantifier": "all programs with any type of state, all reachable couplers, all modules but serial ones and their positions, all histories of rounds and actions in between, all images", "why_tests_cant": "the programs, their states and the histories are unbounded", "anchors": ["src/ur20_fbc_mod_tcp.rs: Coupler::next, inputs, set_output", "src/util.rs: conversions of values"]}
{"id": "C122", "title": "A digital control program copes with restarts and interrupted writes", "statement": "A digital control program as in C120 reads the output registers back before each cycle. It may be restarted at any point between cycles, with any state, and each write of an output image may be interrupted after any of its registers or be lost. Then each output of the program always has a state that was commanded or the one it had: an image that arrives takes exactly the commands of its round, one that arrives in part takes some of them, a restart costs the commands of the next round, and nothing else is ever switched. The program goes on with the inputs it sees. There is always a next round, whatever has happened before: the registers of an image that arrived in part can be read back like those of a whole one.", "quantifier": "all programs with any type of state, all racks that a coupler can be made for, all initial output registers, all sequences of rounds, interrupted writes and restarts, all images", "why_tests_cant": "crash points, the registers that are written before an interruption and their sequences are unbounded", "anchors": ["src/ur20_fbc_mod_tcp.rs: Coupler::new, Coupler::next, inputs, set_output"]}
{"id": "C123", "title": "Connected digital control programs behave like the machines they are written as", "statement": "Any number of digital control programs, each with a rack and a coupler of its own, have outputs connected to inputs of each other (or of themselves) in any way, including loops. They make their rounds in any order. Then the outputs of all of them are, round for round, those of a network of machines without any coupler, in which a round reads the connected outputs as they are, obeys the commands of the round before and computes the next ones. Once each coupler has made a cycle, there is such a run for every order of rounds, if the wiring can be made at all.", "quantifier": "all programs with any type of state, any number of them, all wirings, all racks that a coupler can be made for, all orders of rounds, all other inputs, all use of other channels", "why_tests_cant": "the programs, the wirings and the interleavings of rounds are unbounded", "anchors": ["src/ur20_fbc_mod_tcp.rs: Coupler::next, inputs, set_output"]}
{"id": "C124", "title": "A network of control programs copes with restarts and interrupted writes", "statement": "Digital control programs connected as in C123 are disturbed as in C122: at any time any of them may be restarted with any state, and any write of an output image may be interrupted after any of its registers or be lost. Then the outputs of all of them are, event for event, those of a network of machines without any coupler, in which a restart of a machine costs the commands of its next round, an interrupted write switches some of the commanded outputs, and nothing else changes. A fault of one program reaches the others only through the states of its outputs. Whatever has happened, each program can make its next round.", "quantifier": "all programs with any type of state, any number of them, all wirings, all racks that a coupler can be made for, all sequences of rounds, interrupted writes and restarts of any of them, all initial output registers", "why_tests_cant": "crash points in several programs, their interleavings and the wirings are unbounded", "anchors": ["src/ur20_fbc_mod_tcp.rs: Coupler::new, Coupler::next, inputs, set_output"]}
