{
 "claims": [
  {
   "property": "C01",
   "status": "proved",
   "theorems": [
    "C01_unsigned_roundtrip",
    "C01_unsigned_rejects_negative"
   ],
   "note": ""
  },
  {
   "property": "C02",
   "status": "proved",
   "theorems": [
    "C02_signed_roundtrip"
   ],
   "note": ""
  },
  {
   "property": "C03",
   "status": "proved",
   "theorems": [
    "C03_unsigned_canonical",
    "C03_signed_canonical"
   ],
   "note": ""
  },
  {
   "property": "C04",
   "status": "proved",
   "theorems": [
    "C04_unsigned_reader",
    "C04_signed_reader"
   ],
   "note": ""
  },
  {
   "property": "C05",
   "status": "partial",
   "theorems": [
    "C05_numbers_in_range_refuted",
    "C05_numbers_partial"
   ],
   "note": "REFUTED: the reader has no bound on length or value; any LEB128 number is accepted (shown for the memory minimum). Proved instead: a number read is exactly what the consumed bytes denote."
  },
  {
   "property": "C06",
   "status": "proved",
   "theorems": [
    "C06_signed_wrap",
    "C06_unsigned_wrap"
   ],
   "note": ""
  },
  {
   "property": "C07",
   "status": "proved",
   "theorems": [
    "C07_div_rem",
    "C07_div_raises"
   ],
   "note": ""
  },
  {
   "property": "C08",
   "status": "proved",
   "theorems": [
    "C08_shl",
    "C08_shr_s",
    "C08_shr_u",
    "C08_rotate"
   ],
   "note": ""
  },
  {
   "property": "C09",
   "status": "proved",
   "theorems": [
    "C09_bit_counting"
   ],
   "note": ""
  },
  {
   "property": "C10",
   "status": "proved",
   "theorems": [
    "C10_saturation"
   ],
   "note": ""
  },
  {
   "property": "C11",
   "status": "proved",
   "theorems": [
    "C11_into_bytes_signed",
    "C11_into_bytes_unsigned",
    "C11_from_bytes"
   ],
   "note": ""
  },
  {
   "property": "C12",
   "status": "proved",
   "theorems": [
    "C12_floats_survive",
    "C12_accepted_values",
    "C12_rejects_exactly_out_of_range"
   ],
   "note": "f32 arguments come back rounded once to single precision; the idempotence of that rounding is a hypothesis discharged by the IEEE-754 instance"
  },
  {
   "property": "C13",
   "status": "proved",
   "theorems": [
    "C13_views_agree",
    "C13_built_from_one_view_read_by_the_other"
   ],
   "note": ""
  },
  {
   "property": "C14",
   "status": "proved",
   "theorems": [
    "C14_binary_instructions",
    "C14_unary_instructions",
    "C14_comparisons",
    "C14_tests"
   ],
   "note": ""
  },
  {
   "property": "C15",
   "status": "partial",
   "theorems": [
    "C15_i64_div_u_refuted",
    "C15_i64_div_u_partial"
   ],
   "note": "REFUTED: i64.div_u raises OverflowError when the quotient is 2^63 or more (the result goes through from_i64). The partial theorem gives the exact behaviour for every operand pair."
  },
  {
   "property": "C16",
   "status": "proved",
   "theorems": [
    "C16_integer_conversions"
   ],
   "note": "operands are assumed to have zero bytes beyond their width, as every instruction of the model leaves them"
  },
  {
   "property": "C17",
   "status": "proved",
   "theorems": [
    "C17_load",
    "C17_load_lane"
   ],
   "note": ""
  },
  {
   "property": "C18",
   "status": "proved",
   "theorems": [
    "C18_store",
    "C18_store_lane"
   ],
   "note": ""
  },
  {
   "property": "C19",
   "status": "proved",
   "theorems": [
    "C19_store_then_load"
   ],
   "note": ""
  },
  {
   "property": "C20",
   "status": "proved",
   "theorems": [
    "C20_memory_size",
    "C20_memory_grow"
   ],
   "note": ""
  },
  {
   "property": "C21",
   "status": "proved",
   "theorems": [
    "C21_memory_size",
    "C21_memory_size_any"
   ],
   "note": ""
  },
  {
   "property": "C22",
   "status": "partial",
   "theorems": [
    "C22_maximum_zero_refuted",
    "C22_table_grows_refuted",
    "C22_maximum_partial"
   ],
   "note": "REFUTED: a declared maximum of 0 is read as no maximum, and a table declared 0 0 grows. Proved instead: any other maximum is read as declared (and kept: C20, C21, C24)."
  },
  {
   "property": "C23",
   "status": "proved",
   "theorems": [
    "C23_memory_fill",
    "C23_memory_copy",
    "C23_memory_init"
   ],
   "note": ""
  },
  {
   "property": "C24",
   "status": "proved",
   "theorems": [
    "C24_table_get",
    "C24_table_set",
    "C24_table_size",
    "C24_table_grow",
    "C24_table_fill",
    "C24_table_copy",
    "C24_table_init"
   ],
   "note": ""
  },
  {
   "property": "C25",
   "status": "partial",
   "theorems": [
    "C25_drop_refuted",
    "C25_elem_drop",
    "C25_table_init_dropped",
    "C25_data_drop_partial",
    "C25_memory_init_dropped",
    "C25_stays_dropped",
    "C25_data_stays_dropped"
   ],
   "note": "elem.drop is proved in full, and over sessions dropped segments stay dropped. REFUTED for data.drop: two instances of one loaded module share the bytearray of a segment, so dropping it in one instance empties it in the other (C25_drop_refuted)."
  },
  {
   "property": "C26",
   "status": "proved",
   "theorems": [
    "C26_immutable_globals",
    "C26_index_is_stable"
   ],
   "note": ""
  },
  {
   "property": "C27",
   "status": "partial",
   "theorems": [
    "C27_put_in_range_partial",
    "C27_put_u_in_range_partial",
    "C27_put_i_in_range_partial",
    "C27_put_u8_in_range_partial",
    "C27_put_out_of_range_refuted"
   ],
   "note": "REFUTED outside the range: mem_put/put_u append to the memory instead of raising (slice assignment). In range: proved."
  },
  {
   "property": "C28",
   "status": "proved",
   "theorems": [
    "C28_code_is_structured",
    "C28_invocation",
    "C28_trap"
   ],
   "note": "For code with a structured meaning (big-step semantics in SpecControl.v). A branch to the label of a called function has no rule there: see C29. Host functions are functions of their arguments and the store (plain_host)."
  },
  {
   "property": "C29",
   "status": "partial",
   "theorems": [
    "C29_function_label_refuted",
    "C29_function_label_partial"
   ],
   "note": "REFUTED: evaluate_call computes label.frame after pushing the callee's frame, so a branch to the function label of a called function leaves that frame on the stack. Proved for the function invoked from outside."
  },
  {
   "property": "C30",
   "status": "proved",
   "theorems": [
    "C30_depth",
    "C30_invocation",
    "C30_call_at_limit"
   ],
   "note": "Frames left behind by an earlier trap count (see C34): invocate itself pushes two frames without a check, hence the hypothesis of at most 1022 frames."
  },
  {
   "property": "C31",
   "status": "proved",
   "theorems": [
    "C31_traps",
    "C31_enters",
    "C31_only_matching"
   ],
   "note": ""
  },
  {
   "property": "C32",
   "status": "proved",
   "theorems": [
    "C32_drop",
    "C32_select",
    "C32_select_type",
    "C32_local_get",
    "C32_local_set",
    "C32_local_tee",
    "C32_global_get",
    "C32_global_set"
   ],
   "note": ""
  },
  {
   "property": "C33",
   "status": "proved",
   "theorems": [
    "C33_clean"
   ],
   "note": "Any host function, any starting machine."
  },
  {
   "property": "C34",
   "status": "partial",
   "theorems": [
    "C34_trap_poisons_refuted",
    "C34_refused_partial"
   ],
   "note": "REFUTED: a trap leaves values, labels and frames behind and the next invocation fails. Proved: an invocation that is refused before it starts leaves the machine alone."
  },
  {
   "property": "C35",
   "status": "partial",
   "theorems": [
    "C35_reentrancy_refuted"
   ],
   "note": "REFUTED: evaluate runs until the label stack is empty, so the inner invocation also runs the suspended callers. For host functions that do not call back see C28 (call_outside)."
  },
  {
   "property": "C36",
   "status": "proved",
   "theorems": [
    "C36_store_is_stable"
   ],
   "note": ""
  },
  {
   "property": "C37",
   "status": "proved",
   "theorems": [
    "C37_instruction",
    "C37_expression"
   ],
   "note": "All instruction trees of the binary format (every opcode, any LEB128 padding within the standard's length limits), any continuation."
  },
  {
   "property": "C38",
   "status": "proved",
   "theorems": [
    "C38_module"
   ],
   "note": "All module descriptions and all their encodings without custom sections; custom sections are C39. A declared maximum of 0 has no description in pywasm (C22)."
  },
  {
   "property": "C39",
   "status": "partial",
   "theorems": [
    "C39_no_section_ignored_refuted",
    "C39_module_refuted",
    "C39_up_to_32_sections_partial"
   ],
   "note": "REFUTED: only 32 sections are read, the rest is ignored. Proved instead: with at most 32 sections, custom ones anywhere, nothing is ignored."
  },
  {
   "property": "C40",
   "status": "partial",
   "theorems": [
    "C40_expression",
    "C40_instruction_refuted",
    "C40_instruction_partial",
    "C40_loader_terminates"
   ],
   "note": "Proved in full for expressions and termination; for a single instruction REFUTED for a truncated v128.const at the end of the stream and proved for everything else."
  },
  {
   "property": "C41",
   "status": "proved",
   "theorems": [
    "C41_alignment"
   ],
   "note": "All loads and stores of one value in all code of every accepted module, except v128.load32_zero and v128.load64_zero (not scalar; see C73)."
  },
  {
   "property": "C42",
   "status": "proved",
   "theorems": [
    "C42_rejected",
    "C42_accepted"
   ],
   "note": "Rejection with the machine unchanged for all modules; that nothing else is rejected for modules without globals, element segments, active data and start function. Addresses and type indices are taken to be non-negative (Python would index from the end)."
  },
  {
   "property": "C43",
   "status": "proved",
   "theorems": [
    "C43_index_spaces",
    "C43_allocation_adds",
    "C43_instantiation_adds"
   ],
   "note": "Index spaces for all modules and hosts that keep to well_behaved; that the store is otherwise unchanged: for allocation always, for instantiation if nothing is to be run."
  },
  {
   "property": "C44",
   "status": "proved",
   "theorems": [
    "C44_exports"
   ],
   "note": ""
  },
  {
   "property": "C45",
   "status": "proved",
   "theorems": [
    "C45_active_data",
    "C45_fits_or_raises"
   ],
   "note": "For all modules with constant expressions and no start function, on an idle machine; segments below 2 GiB (longer ones make core.py's i32.const of the length raise OverflowError)."
  },
  {
   "property": "C46",
   "status": "partial",
   "theorems": [
    "C46_fresh_copy_partial",
    "C46_twice_refuted"
   ],
   "note": "REFUTED: after the first instantiation data_drop has emptied the bytearray of the module description, so the second instance's memory stays zero. Proved: a freshly loaded module gives the same memory whatever happened before."
  },
  {
   "property": "C47",
   "status": "partial",
   "theorems": [
    "C47_invocate_checked_partial",
    "C47_kind_refuted"
   ],
   "note": "REFUTED for the kind: Runtime.invocate ignores it, so an exported global, table or memory runs the function of the same address. Name and number of arguments: proved."
  },
  {
   "property": "C48",
   "status": "proved",
   "theorems": [
    "C48_f32_arithmetic",
    "C48_f32_sqrt"
   ],
   "note": "For all operands, not only finite ones, with the host arithmetic being IEEE-754 (Float.v). NaN payloads are left open, as in the specification."
  },
  {
   "property": "C49",
   "status": "partial",
   "theorems": [
    "C49_convert_i32",
    "C49_convert_i64_partial",
    "C49_convert_i64_refuted"
   ],
   "note": "REFUTED for 64-bit sources: 2^53+2^29+1 converts to 2^53 though 2^53+2^30 is nearer (rounded twice). Proved for all 32-bit integers and for 64-bit integers of the form k*2^j with |k| < 2^53."
  },
  {
   "property": "C50",
   "status": "partial",
   "theorems": [
    "C50_min_max_partial",
    "C50_min_max_refuted"
   ],
   "note": "REFUTED for a pair of opposite zeros: f64.min(+0,-0) is +0. Proved for all other operands."
  },
  {
   "property": "C51",
   "status": "partial",
   "theorems": [
    "C51_rounding_partial",
    "C51_rounding_refuted"
   ],
   "note": "REFUTED for the sign of zero results: f64.ceil(-0.5) is +0. Everything else proved: the result equals the specified one or both are zeros."
  },
  {
   "property": "C52",
   "status": "proved",
   "theorems": [
    "C52_truncation"
   ],
   "note": "All 16 opcodes."
  },
  {
   "property": "C53",
   "status": "proved",
   "theorems": [
    "C53_sign_bit"
   ],
   "note": "Also shows that the unused bytes of the value are kept."
  },
  {
   "property": "C54",
   "status": "proved",
   "theorems": [
    "C54_lanes_of_a_vector",
    "C54_lane_unary",
    "C54_lane_binary",
    "C54_lane_shifts"
   ],
   "note": "All integer lane-wise unary, binary, saturating, averaging, q15mulr and shift instructions of the four lane shapes, for all operands."
  },
  {
   "property": "C55",
   "status": "proved",
   "theorems": [
    "C55_lane_comparisons"
   ],
   "note": "All 36 integer lane comparisons."
  },
  {
   "property": "C56",
   "status": "proved",
   "theorems": [
    "C56_splat",
    "C56_extract_lane",
    "C56_replace_lane",
    "C56_shuffle",
    "C56_swizzle"
   ],
   "note": "splat, extract_lane and replace_lane of all six shapes for every lane index, shuffle for all 16 indices below 32, swizzle for all operands."
  },
  {
   "property": "C57",
   "status": "proved",
   "theorems": [
    "C57_extend",
    "C57_extmul",
    "C57_extadd_pairwise",
    "C57_dot_product",
    "C57_narrow"
   ],
   "note": "extend, extmul, extadd_pairwise, dot and narrow never raise and give the specified lanes; q15mulr is in C54_lane_binary."
  },
  {
   "property": "C58",
   "status": "proved",
   "theorems": [
    "C58_logic",
    "C58_not",
    "C58_bitselect",
    "C58_any_true",
    "C58_all_true",
    "C58_bitmask"
   ],
   "note": "Operators on the 128-bit number; any_true, all_true and bitmask of every shape."
  },
  {
   "property": "C59",
   "status": "proved",
   "theorems": [
    "C59_closed",
    "C59_only_live",
    "C59_renumber"
   ],
   "note": "A closed descriptor stays closed through any calls, and any call given it as an argument returns EBADF and changes nothing (descriptors that poll_oneoff finds in memory are not covered); from the constructor through any calls and the end of main only open host descriptors are used, for any operating system that does not hand out open descriptors and closes what it is asked to close; fd_renumber between two descriptors is described exactly."
  },
  {
   "property": "C60",
   "status": "proved",
   "theorems": [
    "C60_fresh"
   ],
   "note": "The number path_open stores was never an entry of the table at any earlier time, and is open afterwards; all other descriptors stay."
  },
  {
   "property": "C61",
   "status": "proved",
   "theorems": [
    "C61_set_rights",
    "C61_no_gain"
   ],
   "note": ""
  },
  {
   "property": "C62",
   "status": "partial",
   "theorems": [
    "C62_refuted",
    "C62_asked_partial"
   ],
   "note": "REFUTED: the inheriting rights of the directory are not consulted, so path_open can give rights that the directory cannot pass on. Proved: the new descriptor has at most the rights asked for, and the directory had the right to open."
  },
  {
   "property": "C63",
   "status": "partial",
   "theorems": [
    "C63_sibling_refuted",
    "C63_root_refuted",
    "C63_dot_refuted",
    "C63_open_partial",
    "C63_accepts_partial"
   ],
   "note": "REFUTED three ways: a sibling with a longer name passes the string prefix test; every path function other than path_open tests the guest's name of the directory but acts in the host's directory, so with guest name / nothing is refused; with guest name . names below are refused and names above accepted. Proved: whatever path_open asks the system to open lies in the directory or beside it under a longer name, and relative names that stay inside are never refused."
  },
  {
   "property": "C64",
   "status": "partial",
   "theorems": [
    "C64_strings_partial",
    "C64_sizes_partial",
    "C64_refuted"
   ],
   "note": "REFUTED for strings with non-ASCII characters (sizes count characters, and the zero byte overwrites the second byte). Proved for ASCII strings."
  },
  {
   "property": "C65",
   "status": "proved",
   "theorems": [
    "C65_os",
    "C65_stream"
   ],
   "note": ""
  },
  {
   "property": "C66",
   "status": "partial",
   "theorems": [
    "C66_os_partial",
    "C66_stream_partial",
    "C66_refuted"
   ],
   "note": "REFUTED with an empty buffer before a non-empty one (reading stops and 0 is reported). Proved for non-empty buffers, for host files and in-memory streams."
  },
  {
   "property": "C67",
   "status": "partial",
   "theorems": [
    "C67_refuted",
    "C67_error_partial",
    "C67_cur_partial"
   ],
   "note": "REFUTED: finding the current position with lseek(fd, 0, SEEK_SET) moves it to 0 before the error is returned. Proved: an error leaves everything unchanged but for that one seek by 0, and for SEEK_CUR the position is unchanged."
  },
  {
   "property": "C68",
   "status": "partial",
   "theorems": [
    "C68_refuted",
    "C68_dirs_partial"
   ],
   "note": "REFUTED for descriptors 0 to 2, which are reported as preopened directories. Proved from descriptor 3 on."
  },
  {
   "property": "C69",
   "status": "partial",
   "theorems": [
    "C69_refuted",
    "C69_other_partial"
   ],
   "note": "REFUTED: renumbering a descriptor to itself closes it, always. Proved for two different descriptors."
  },
  {
   "property": "C70",
   "status": "partial",
   "theorems": [
    "C70_status",
    "C70_call",
    "C70_argument",
    "C70_proc_exit",
    "C70_returns",
    "C70_raises",
    "C70_normal",
    "C70_refuted"
   ],
   "note": "REFUTED only for statuses from 2^31 on, which come back negative. Proved: main returns the signed reading of the status, 0 after a normal return, and the stacks are empty afterwards in either case and after any other exception."
  },
  {
   "property": "C71",
   "status": "partial",
   "theorems": [
    "C71_refuted",
    "C71_memories_partial"
   ],
   "note": "REFUTED: a negative pointer (2^31 and up) or one beyond the end makes the memory longer and the call succeed. Proved: no call, whatever its arguments, changes anything of the machine but memory bytes, and no memory gets shorter."
  },
  {
   "property": "C72",
   "status": "proved",
   "theorems": [
    "C72_loaded_in_order",
    "C72_values_in_order",
    "C72_table_size"
   ],
   "note": ""
  },
  {
   "property": "C73",
   "status": "partial",
   "theorems": [
    "C73_vector_alignment_refuted",
    "C73_vector_alignment_partial"
   ],
   "note": "REFUTED for v128.load32_zero, v128.load64_zero and the lane accesses, which are accepted with any alignment; proved for the other vector accesses."
  },
  {
   "property": "C74",
   "status": "partial",
   "theorems": [
    "C74_lengths_refuted",
    "C74_section_lengths_partial"
   ],
   "note": "REFUTED for data segments and function bodies (short reads are accepted); proved for sections."
  },
  {
   "property": "C75",
   "status": "partial",
   "theorems": [
    "C75_code_for_every_function_refuted",
    "C75_code_section_partial"
   ],
   "note": "REFUTED: functions without bodies are accepted. Proved instead: never more bodies than functions."
  },
  {
   "property": "C76",
   "status": "proved",
   "theorems": [
    "C76_float_comparisons"
   ],
   "note": ""
  },
  {
   "property": "C77",
   "status": "proved",
   "theorems": [
    "C77_f64_arithmetic",
    "C77_f64_sqrt"
   ],
   "note": ""
  },
  {
   "property": "C78",
   "status": "proved",
   "theorems": [
    "C78_demote",
    "C78_promote",
    "C78_convert_to_f64"
   ],
   "note": ""
  },
  {
   "property": "C79",
   "status": "partial",
   "theorems": [
    "C79_f64_copysign",
    "C79_f32_copysign_partial",
    "C79_f32_copysign_refuted"
   ],
   "note": "REFUTED for f32 signalling NaNs: the conversion to a Python float quiets them. f64 proved for all operands, f32 for all first operands that are not NaN."
  },
  {
   "property": "C80",
   "status": "proved",
   "theorems": [
    "C80_f32x4_arithmetic",
    "C80_f64x2_arithmetic",
    "C80_f32x4_sqrt",
    "C80_f64x2_sqrt"
   ],
   "note": ""
  },
  {
   "property": "C81",
   "status": "proved",
   "theorems": [
    "C81_vector_comparisons"
   ],
   "note": ""
  },
  {
   "property": "C82",
   "status": "partial",
   "theorems": [
    "C82_min_max_partial",
    "C82_min_max_refuted",
    "C82_pick_partial",
    "C82_pick_refuted"
   ],
   "note": "REFUTED for lanes holding zeros of opposite sign (f64x2.min of +0 and -0 is +0) and for pmin/pmax when the lane picked is a signalling f32 NaN (its quiet bit gets set). Proved for every other lane."
  },
  {
   "property": "C83",
   "status": "partial",
   "theorems": [
    "C83_rounding_partial",
    "C83_rounding_refuted"
   ],
   "note": "REFUTED: the sign of a zero result is lost, as in the scalar instructions (f64x2.ceil of -0.5 is +0). Proved up to the sign of a zero."
  },
  {
   "property": "C84",
   "status": "partial",
   "theorems": [
    "C84_sign_bit_partial",
    "C84_sign_bit_refuted"
   ],
   "note": "REFUTED for signalling f32 NaN lanes: abs and neg go through a double and set the quiet bit. Proved bit for bit for f64x2 and for every f32x4 lane that is not a NaN."
  },
  {
   "property": "C85",
   "status": "proved",
   "theorems": [
    "C85_trunc_sat_f32x4",
    "C85_trunc_sat_f64x2",
    "C85_convert_f32x4",
    "C85_convert_f64x2",
    "C85_demote",
    "C85_promote"
   ],
   "note": ""
  },
  {
   "property": "C86",
   "status": "proved",
   "theorems": [
    "C86_rights"
   ],
   "note": ""
  },
  {
   "property": "C87",
   "status": "partial",
   "theorems": [
    "C87_create_refuted",
    "C87_pread_refuted",
    "C87_tell_refuted",
    "C87_trunc_partial"
   ],
   "note": "REFUTED: path_open with O_CREAT does not check path_create_file; fd_pread does not need fd_seek; fd_seek does not include fd_tell. Proved: truncating needs path_filestat_set_size."
  },
  {
   "property": "C88",
   "status": "proved",
   "theorems": [
    "C88_seek",
    "C88_tell"
   ],
   "note": ""
  },
  {
   "property": "C89",
   "status": "partial",
   "theorems": [
    "C89_pread_partial",
    "C89_pwrite",
    "C89_refuted"
   ],
   "note": "REFUTED for empty buffers (an empty buffer ends the reading). Proved: fd_pread into non-empty buffers, fd_pwrite without restriction."
  },
  {
   "property": "C90",
   "status": "partial",
   "theorems": [
    "C90_refuted",
    "C90_append_partial"
   ],
   "note": "REFUTED: changing NONBLOCK is always refused with EINVAL. Proved: APPEND."
  },
  {
   "property": "C91",
   "status": "partial",
   "theorems": [
    "C91_refuted",
    "C91_times_partial"
   ],
   "note": "REFUTED: MTIM_NOW stores the argument instead of the present time. Proved: all other flags."
  },
  {
   "property": "C92",
   "status": "partial",
   "theorems": [
    "C92_refuted"
   ],
   "note": "REFUTED: every absolute deadline that lies ahead raises ValueError, because the waiting time is computed with the wrong sign."
  },
  {
   "property": "C93",
   "status": "partial",
   "theorems": [
    "C93_refuted",
    "C93_layout_partial"
   ],
   "note": "REFUTED: the file is asked for by name, so the call fails (or describes another file) after an unlink or rename. Proved: the layout of what is stored."
  },
  {
   "property": "C94",
   "status": "proved",
   "theorems": [
    "C94_no_sockets"
   ],
   "note": ""
  },
  {
   "property": "C95",
   "status": "partial",
   "theorems": [
    "C95_refuted",
    "C95_number_partial"
   ],
   "note": "REFUTED: path_unlink_file of a missing file raises FileNotFoundError. Proved: every number returned after an error is the right one."
  },
  {
   "property": "C96",
   "status": "proved",
   "theorems": [
    "C96_fdstat"
   ],
   "note": ""
  },
  {
   "property": "C97",
   "status": "proved",
   "theorems": [
    "C97_clock",
    "C97_random"
   ],
   "note": ""
  },
  {
   "property": "C98",
   "status": "partial",
   "theorems": [
    "C98_ascii_partial",
    "C98_refuted"
   ],
   "note": "REFUTED for non-ASCII names: the length stored counts characters, not bytes. Proved: ASCII names, all buffer sizes and start entries."
  },
  {
   "property": "C99",
   "status": "proved",
   "theorems": [
    "C99_only_traps",
    "C99_every_turn",
    "C99_ieee"
   ],
   "note": ""
  },
  {
   "property": "C100",
   "status": "proved",
   "theorems": [
    "C100_returns"
   ],
   "note": ""
  },
  {
   "property": "C101",
   "status": "proved",
   "theorems": [
    "C101_operands"
   ],
   "note": ""
  },
  {
   "property": "C102",
   "status": "partial",
   "theorems": [
    "C102_accepts_only_partial",
    "C102_limits_refuted",
    "C102_sections_refuted",
    "C102_order_refuted",
    "C102_immediates_refuted",
    "C102_block_type_refuted"
   ],
   "note": "REFUTED in general: limit flags above 1, unknown, repeated and disordered sections, reserved bytes, reference and select types, and negative block types are accepted (C102_limits_refuted, C102_sections_refuted, C102_order_refuted, C102_immediates_refuted, C102_block_type_refuted). Proved: everything accepted is in the format with exactly the relaxations marked in SpecLax.v (C102_accepts_only_partial)."
  },
  {
   "property": "C103",
   "status": "proved",
   "theorems": [
    "C103_instantiation",
    "C103_histories"
   ],
   "note": "Validity of modules and the typing rules are in SpecValid.v and SpecType.v. Besides traps the theorem names one more way to stop, the interpreter's limit on turns of its loop (n >= 2). Bounds: fewer than 2^31 functions and table entries, and data segments below 2^31 bytes."
  },
  {
   "property": "C104",
   "status": "partial",
   "theorems": [
    "C104_calls_partial",
    "C104_host_function_refuted",
    "C104_null_result_refuted",
    "C104_after_trap_refuted"
   ],
   "note": "REFUTED as stated: C104_host_function_refuted (an imported host function that is exported again cannot be called), C104_null_result_refuted (a null reference result raises AssertionError), C104_after_trap_refuted (after a trapping call later calls raise). C104_calls_partial proves the rest: calls of the module's own exported functions after any history of instantiations and calls that returned."
  },
  {
   "property": "C105",
   "status": "proved",
   "theorems": [
    "C105_structured",
    "C105_exactly"
   ],
   "note": "Over stores of validated functions and host functions of store and arguments. The one exception is in the statement: a call_indirect whose table entry is neither null nor a reference to an existing function (such an entry can only come from the embedder; -1 then names the last function, see C105_stray). Branches to the function's own label are not typable (C29)."
  },
  {
   "property": "C106",
   "status": "proved",
   "theorems": [
    "C106_references",
    "C106_histories",
    "C106_exactly"
   ],
   "note": "Any code keeps references valid, also when it raises (C106_references); all honest histories reach only machines with valid references (C106_histories); after such a history validated functions do exactly what the structured semantics says, with no exception for stray references (C106_exactly)."
  },
  {
   "property": "C107",
   "status": "proved",
   "theorems": [
    "C107_instructions",
    "C107_runs",
    "C107_honest_runs"
   ],
   "note": "Three theorems: one turn (C107_instructions), whole calls from a typed store (C107_runs), whole calls after an honest history, where stray references are excluded (C107_honest_runs). The standard's meaning is the relation does and the deviations are the relation amiss, both in SpecStandard.v; any NaN is accepted for a NaN, and memory.grow and table.grow may always fail, as the standard allows."
  },
  {
   "property": "C108",
   "status": "proved",
   "theorems": [
    "C108_instantiates",
    "C108_honest_instantiates"
   ],
   "note": "Instantiation of a validated module: the objects added (adds), then the initialisation codes run by the standard's meaning of every instruction (initialises); it returns exactly when all end and raises exactly when one traps, up to the limit on turns, stray references (none after an honest history: part 2) and the deviations named in C107. The conclusion for a loaded module needs the segments' bytes to be its own (untouched), which loading establishes; instantiating the same loaded module again is C25."
  },
  {
   "property": "C109",
   "status": "proved",
   "theorems": [
    "C109_bytes_to_results"
   ],
   "note": "The chain of decoder, instantiation, interpreter and value conversion as one theorem: bytes of a validated module are read as that module (C38, C39), an exported function of its own is found by name and a call with Python values of the right kinds gives what stands for the results of a standard run (C107). The limit on turns and the named deviations of C107 are the remaining alternatives; re-exported imports are not covered (C104)."
  },
  {
   "property": "C110",
   "status": "proved",
   "theorems": [
    "C110_one_request",
    "C110_success"
   ],
   "note": "For fd_sync, fd_filestat_set_size, path_create_directory, path_remove_directory, path_unlink_file, path_symlink, path_link and path_rename: the call makes exactly one request, the one it stands for, and succeeds exactly if that does; conversely every success of these calls on names in memory came from such a request."
  },
  {
   "property": "C111",
   "status": "proved",
   "theorems": [
    "C111_path_filestat_get",
    "C111_missing"
   ],
   "note": "path_filestat_get, with and without following links, and the missing file."
  },
  {
   "property": "C112",
   "status": "partial",
   "theorems": [
    "C112_overflow_refuted",
    "C112_count_refuted",
    "C112_ascii_partial"
   ],
   "note": "REFUTED: the code counts characters, so it writes beyond the buffer and reports too few bytes for targets outside ASCII. Proved for ASCII targets."
  },
  {
   "property": "C113",
   "status": "partial",
   "theorems": [
    "C113_short_refuted",
    "C113_allocate_partial"
   ],
   "note": "REFUTED: a short write of the operating system leaves the file too short and the call reports success. Proved: content and position are kept, only zeros are appended, and the file is long enough if the operating system writes all it is given."
  },
  {
   "property": "C114",
   "status": "partial",
   "theorems": [
    "C114_link_refuted",
    "C114_missing_refuted",
    "C114_times_partial"
   ],
   "note": "REFUTED: without following links the stamps to be kept are taken from the target of the link, and a missing file raises a Python exception instead of returning an error number. Proved for calls that follow links or set both stamps of an existing file."
  },
  {
   "property": "C115",
   "status": "partial",
   "theorems": [
    "C115_silence_refuted",
    "C115_padding_refuted",
    "C115_events_partial"
   ],
   "note": "REFUTED: a wait for descriptors ends silently after eight seconds with no event and success; padding bytes are read as part of the clock identifier. Proved: for any mixture of relative clocks with zero padding and pollable descriptors, one select on exactly these, and exactly the events that are due."
  },
  {
   "property": "C116",
   "status": "partial",
   "theorems": [
    "C116_cut_refuted",
    "C116_longer_refuted",
    "C116_frame_partial"
   ],
   "note": "REFUTED: ranges leaving memory are cut off or make the memory longer. Proved: calls with fixed result ranges in memory write nothing outside them, however they end."
  },
  {
   "property": "C117",
   "status": "proved",
   "theorems": [
    "C117_call",
    "C117_other_turn",
    "C117_turn",
    "C117_history",
    "C117_program",
    "C117_no_sockets",
    "C117_only_live"
   ],
   "note": "Runs with the WASI functions bound (WasiRun.v). A turn at a call of a bound function is exactly that method's call on the state as the calls before left it; every other turn leaves descriptor table, streams and log alone; so every run is a history of WASI calls. From that: no socket request, and only open host descriptors are used, from the constructor to the end of main, whatever the module. The parsing of the command line is not modelled."
  },
  {
   "property": "C118",
   "status": "partial",
   "theorems": [
    "C118_refuted",
    "C118_bind",
    "C118_instantiation",
    "C118_rest",
    "C118_only_traps_partial"
   ],
   "note": "REFUTED (C118_refuted): random_get with a pointer beyond the end of a memory of zero pages lengthens its data, after which i32.load at 0 succeeds in a validated program. Proved: the effect of bind and instantiation (C118_bind, C118_instantiation, C118_rest), and for every call, operating system and number of turns that unless a WASI call lengthens a memory only instructions that may trap raise and types are kept (C118_only_traps_partial). Missing: modules whose start function calls WASI functions."
  },
  {
   "property": "C119",
   "status": "partial",
   "theorems": [
    "C119_devices_refuted",
    "C119_renumber_refuted",
    "C119_lost_refuted",
    "C119_stacks_refuted",
    "C119_outcome_partial",
    "C119_stacks_partial",
    "C119_closed_partial"
   ],
   "note": "REFUTED: a character device, a file renumbered to a standard stream and a file whose stat fails stay open after main, and with return_on_exit off the stacks stay (witnesses). Proved: what main returns and raises, that the stacks are empty, and that everything is closed if none of these cases occurs."
  },
  {
   "property": "C120",
   "status": "partial",
   "theorems": [
    "C120_refuted",
    "C120_table_partial",
    "C120_streams_partial"
   ],
   "note": "REFUTED: a second run of main works on host descriptors the first one closed (witness). Proved: main changes only the host side of entries from 3 on; calls on the standard streams alone stay on live host descriptors."
  },
  {
   "property": "C121",
   "status": "proved",
   "theorems": [
    "C121_only_named"
   ],
   "note": "All WASI functions but poll_oneoff, every state and operating system."
  },
  {
   "property": "C122",
   "status": "proved",
   "theorems": [
    "C122_environment",
    "C122_throughout",
    "C122_malformed"
   ],
   "note": "For the options as argparse delivers them."
  },
  {
   "property": "C123",
   "status": "proved",
   "theorems": [
    "C123_directories"
   ],
   "note": "For names in normal form (the constructor normalises others) and absolute host names."
  },
  {
   "property": "C124",
   "status": "partial",
   "theorems": [
    "C124_call",
    "C124_refused",
    "C124_prefix_refuted",
    "C124_results"
   ],
   "note": "REFUTED in one respect: the two characters before a vector are not looked at, so a vector written without 0x loses its first byte (C124_prefix_refuted). The call, the printed results (C124_results, from the bytes of the module) and the refusals are proved in full."
  },
  {
   "property": "C125",
   "status": "partial",
   "theorems": [
    "C125_status_partial",
    "C125_refuted"
   ],
   "note": "REFUTED: a program whose start function calls proc_exit ends with a traceback and status 1. Proved for programs that have been instantiated and whose files can be closed at the end."
  },
  {
   "property": "C126",
   "status": "proved",
   "theorems": [
    "C126_provenance",
    "C126_origin",
    "C126_no_deviation",
    "C126_bytes_to_results",
    "C126_command"
   ],
   "note": "C126_provenance, C126_origin, C126_no_deviation, C126_bytes_to_results (C109 without its deviation case) and C126_command (C124 without it). Host functions are assumed to leave the stack of labels and the list of functions alone; the 33 suspect instructions are listed in SpecCode.suspect."
  },
  {
   "property": "C127",
   "status": "proved",
   "theorems": [
    "C127_cut_off",
    "C127_expression",
    "C127_no_wrong_answer",
    "C127_printed"
   ],
   "note": "C127_cut_off (any function, any limit), C127_expression (expressions of instantiation), C127_no_wrong_answer and C127_printed (for modules without the suspect instructions of C126). C109, C124 and C126 now also say that an unfinished run raises."
  },
  {
   "property": "C128",
   "status": "proved",
   "theorems": [
    "C128_only_run",
    "C128_results",
    "C128_certain"
   ],
   "note": "Proved for every run: a run of the standard without choices is the only one (C128_only_run); calls of validated modules give the result of that only run unless they are cut off, deviate or choose (C128_results); for modules without deviating or choosing instructions only the cut-off remains (C128_certain)."
  },
  {
   "property": "C129",
   "status": "proved",
   "theorems": [
    "C129_terminates",
    "C129_certain"
   ],
   "note": "Proved by induction on the standard's run (FollowFacts.v) with C28's simulation bounding the turns: C129_terminates for all validated modules up to deviations and choices, C129_certain for modules without them, where cut off at every limit is equivalent to having no finite run."
  },
  {
   "property": "C130",
   "status": "partial",
   "theorems": [
    "C130_refuted",
    "C130_calls_partial",
    "C130_moments_partial",
    "C130_histories_partial",
    "C130_confined_partial",
    "C130_private_partial"
   ],
   "note": "REFUTED for modules that were only decoded: a file without imports whose element segment forges a function reference runs an unexported function of another module and changes its private global (C130_refuted; pywasm does not validate). Proved for validated modules, host functions that keep to the part of the store they belong to, and arguments that do not forge references: calls (C130_calls_partial), every moment of a run (C130_moments_partial), histories (C130_histories_partial), modules without imports (C130_confined_partial) and their private state (C130_private_partial). Missing: modules with branches to a function's own label, which pywasm gets wrong (C29)."
  },
  {
   "property": "C131",
   "status": "partial",
   "theorems": [
    "C131_refuted",
    "C131_checked_partial"
   ],
   "note": "REFUTED: six files, each breaking one rule of validation (type of a body's result, a local that does not exist, type and constancy of a global's initial value, an export name used twice, type of an element segment's entry), are read and instantiated (C131_refuted; pywasm has no validator). Proved: what instantiation does check of every module it accepts (C131_checked_partial)."
  },
  {
   "property": "C132",
   "status": "proved",
   "theorems": [
    "C132_calls",
    "C132_moments",
    "C132_interleaved"
   ],
   "note": "For all closed parts of a typed store, all other stores that agree on the part (nothing else is asked of the second store), all functions, arguments and limits of turns: the same results or the same exception, turn by turn the same stacks, and stores that agree again. Host functions of the part must work on the part only and do the same in both stores (host_inside, host_agrees). For a validated module without imports: calls interleaved with arbitrary other programs that are handed none of its objects return what the calls alone return. As in C130 the modules are validated (valid_module), which pywasm itself does not check; C130_refuted shows that this is needed."
  },
  {
   "property": "C133",
   "status": "proved",
   "theorems": [
    "C133_own_memory",
    "C133_same_call",
    "C133_confined",
    "C133_same_run"
   ],
   "note": "(c) and (d) hold unless a WASI call lengthens a memory, which C118 shows can happen; after that the typing of running code no longer applies. The conditions on host functions in C130 and C132 may now assume that the calling instance belongs to the part."
  },
  {
   "property": "C134",
   "status": "proved",
   "theorems": [
    "C134_ends",
    "C134_limit",
    "C134_ranked",
    "C134_recursion"
   ],
   "note": ""
  },
  {
   "property": "C135",
   "status": "proved",
   "theorems": [
    "C135_bounded"
   ],
   "note": ""
  },
  {
   "property": "C136",
   "status": "proved",
   "theorems": [
    "C136_graph",
    "C136_pure",
    "C136_invocation",
    "C136_traceless"
   ],
   "note": ""
  },
  {
   "property": "C137",
   "status": "proved",
   "theorems": [
    "C137_function",
    "C137_program",
    "C137_invocation",
    "C137_never"
   ],
   "note": ""
  },
  {
   "property": "C138",
   "status": "proved",
   "theorems": [
    "C138_function",
    "C138_descriptors",
    "C138_streams",
    "C138_store"
   ],
   "note": ""
  },
  {
   "property": "C139",
   "status": "proved",
   "theorems": [
    "C139_ends",
    "C139_ranked",
    "C139_recursion",
    "C139_bounded"
   ],
   "note": ""
  },
  {
   "property": "C140",
   "status": "partial",
   "theorems": [
    "C140_earned_partial",
    "C140_datasync",
    "C140_clock",
    "C140_refuted"
   ],
   "note": "REFUTED as stated: fd_datasync reports success without asking the operating system for anything (wasi.py 630-636, C140_datasync for every world), and clock_time_get reports success with time 0 for an unknown clock (wasi.py 1018-1019). Proved for the other 22 functions (C140_earned_partial) and for the four clocks (C140_clock)."
  },
  {
   "property": "C141",
   "status": "partial",
   "theorems": [
    "C141_errno_partial",
    "C141_raised_partial",
    "C141_refuted"
   ],
   "note": "REFUTED as stated: fd_fdstat_set_flags (wasi.py 661-671) changes the flags it notes for the descriptor before fcntl, and keeps them when fcntl raises. Proved for every call of every WASI function that returns an error number (C141_errno_partial), and also for exceptions of all other functions that hand nothing back through memory (C141_raised_partial)."
  }
 ]
}