{"id": "C01", "title": "Unsigned LEB128 round trip", "statement": "Encoding any non-negative integer with leb128.u.encode and reading it back with leb128.u.decode_reader from a stream that continues with arbitrary bytes returns exactly that integer and the number of bytes that were encoded, and leaves exactly the continuation unread. Encoding a negative integer raises.", "quantifier": "every integer and every continuation of the stream", "why_tests_cant": "integers are unbounded; tests only sample a few", "anchors": ["pywasm/leb128.py:_U.encode,_U.decode,_U.decode_reader"]}
{"id": "C02", "title": "Signed LEB128 round trip", "statement": "Encoding any integer (negative ones included) with leb128.i.encode and reading it back with leb128.i.decode_reader from a stream with an arbitrary continuation returns exactly that integer and consumes exactly the encoded bytes.", "quantifier": "every integer and every continuation", "why_tests_cant": "integers are unbounded and the sign-extension boundary moves with the length", "anchors": ["pywasm/leb128.py:_I.encode,_I.decode,_I.decode_reader"]}
{"id": "C03", "title": "LEB128 encodings are canonical and shortest", "statement": "For unsigned and for signed LEB128: every byte of an encoding but the last has its top bit set and the last has it clear, and no other byte string that the reader accepts as the same number is shorter.", "quantifier": "every integer and every competing encoding of it", "why_tests_cant": "minimality compares against all byte strings", "anchors": ["pywasm/leb128.py:_U.encode,_I.encode"]}
{"id": "C04", "title": "LEB128 readers consume exactly one number", "statement": "decode_reader stops at the first byte whose top bit is clear, consumes nothing past it, returns the base-128 value of the bytes read (two's complement for the signed reader), and raises if and only if the stream ends before such a byte.", "quantifier": "every byte stream", "why_tests_cant": "all streams, including truncated and over-long ones", "anchors": ["pywasm/leb128.py:_U.decode_reader,_I.decode_reader"]}
{"id": "C05", "title": "The loader rejects integers outside the range the Wasm format allows", "statement": "A Wasm u32 is at most five bytes long and below 2^32; a module whose integers break that is malformed, so the loader raises on it instead of loading it.", "quantifier": "every byte stream handed to the loader", "why_tests_cant": "an accepted malformed stream only shows if somebody thinks of that stream", "anchors": ["pywasm/leb128.py:_U.decode_reader", "pywasm/core.py:Inst.from_reader,ModuleDesc.from_reader"]}
{"id": "C06", "title": "Wrapping integer arithmetic", "statement": "For every width, fit/add/sub/mul return the one integer of the width's signed (or unsigned) range that is congruent to the exact mathematical result modulo 2^N.", "quantifier": "every byte width and all integer operands (not only in-range ones)", "why_tests_cant": "2^128 operand pairs per operation", "anchors": ["pywasm/arith.py:I.fit,I.add,I.sub,I.mul,U.fit,U.add,U.sub,U.mul"]}
{"id": "C07", "title": "Signed division truncates", "statement": "I.div returns the quotient rounded toward zero and I.rem the remainder with the sign of the dividend, with a = div*b + rem; div raises exactly for a zero divisor and for min/-1, rem raises exactly for a zero divisor and is 0 for min/-1.", "quantifier": "every width and every pair of in-range operands", "why_tests_cant": "four sign combinations times an unbounded range; the code goes through floor division", "anchors": ["pywasm/arith.py:I.div,I.rem"]}
{"id": "C08", "title": "Shifts and rotations", "statement": "For every width that is a power of two and every shift count (negative and over-wide ones included) shl/shr/rotl/rotr use the count modulo the width: bit i of the result is the bit of the operand Wasm says, with zero or sign fill as appropriate.", "quantifier": "every power-of-two width, every operand, every count", "why_tests_cant": "counts are unbounded and masking is easy to get wrong at the boundary", "anchors": ["pywasm/arith.py:I.shl,I.shr,U.shl,U.shr,U.rotl,U.rotr"]}
{"id": "C09", "title": "Bit counting", "statement": "clz is the number of zero bits above the highest set bit, ctz the number below the lowest set bit (both N for zero), popcnt the number of set bits.", "quantifier": "every width and every unsigned operand of that width", "why_tests_cant": "2^64 operands", "anchors": ["pywasm/arith.py:U.clz,U.ctz,U.popcnt"]}
{"id": "C10", "title": "Saturating arithmetic", "statement": "sat/add_sat/sub_sat return the representable integer closest to the exact result: the result itself when representable, otherwise the bound on its side.", "quantifier": "every width, all operands, signed and unsigned", "why_tests_cant": "boundaries on both sides for each width", "anchors": ["pywasm/arith.py:I.sat,I.add_sat,I.sub_sat,U.sat,U.add_sat,U.sub_sat"]}
{"id": "C11", "title": "Integer/byte conversion", "statement": "into_bytearray yields the little-endian two's complement bytes of every representable integer and raises for every other one; from_bytearray inverts it and raises for every other length.", "quantifier": "every width, integer and byte string", "why_tests_cant": "all integers and all byte strings", "anchors": ["pywasm/arith.py:I.from_bytearray,I.into_bytearray,U.from_bytearray,U.into_bytearray"]}
{"id": "C12", "title": "Values survive the API boundary", "statement": "A value handed to the API for a parameter type is either rejected with an exception or stored so that reading it back with the same type returns exactly the same number, byte string or reference; a number handed in for an f32 comes back rounded once to single precision, an int handed in for a float comes back as the float Python converts it to. Integers are rejected exactly when out of the type's signed range. Every value carries exactly 16 bytes and its type.", "quantifier": "every value type and every Python argument", "why_tests_cant": "all 2^64 integers, all 128-bit vectors, all references", "anchors": ["pywasm/core.py:ValInst.from_all,ValInst.into_all,ValInst.from_*,ValInst.into_*"]}
{"id": "C13", "title": "Signed and unsigned views agree", "statement": "The signed and unsigned readings of a value are the two representatives of the same residue: they are congruent modulo 2^N and lie in their ranges; a value built from one view reads back through the other accordingly.", "quantifier": "every 16-byte value", "why_tests_cant": "all bit patterns", "anchors": ["pywasm/core.py:ValInst.into_i32,into_u32,into_i64,into_u64,from_u32,from_u64"]}
{"id": "C14", "title": "Integer instructions compute the Wasm result", "statement": "Executing any i32/i64 arithmetic, logic, comparison, shift, rotate, count or sign-extension instruction (except i64.div_u) replaces its operands on the operand stack by the value the Wasm specification assigns, or traps exactly when the specification traps, and changes nothing else in the machine.", "quantifier": "every such opcode, all operand values, every machine state", "why_tests_cant": "about sixty opcodes times 2^128 operands, in every state", "anchors": ["pywasm/core.py:Machine.evaluate (i32_*/i64_* cases)"]}
{"id": "C15", "title": "Unsigned 64-bit division", "statement": "i64.div_u with a non-zero divisor pushes the unsigned quotient for every pair of operands.", "quantifier": "every pair of 64-bit operands", "why_tests_cant": "the failing quotients are those with the top bit set; tests use small ones", "anchors": ["pywasm/core.py:Machine.evaluate i64_div_u (2307-2311)"]}
{"id": "C16", "title": "Integer conversions", "statement": "i32.wrap_i64, i64.extend_i32_s/u and the reinterpretations produce the value the specification assigns with the result type of the opcode and change nothing else.", "quantifier": "every operand and machine state", "why_tests_cant": "all bit patterns", "anchors": ["pywasm/core.py:Machine.evaluate 2508-2623"]}
{"id": "C17", "title": "Loads are bounds checked and exact", "statement": "A load at effective address base+offset (no wrap-around) of n bytes traps exactly when base+offset+n exceeds the current memory length, and otherwise pushes the little-endian value of those n bytes, sign- or zero-extended as the opcode says, changing nothing else.", "quantifier": "every load opcode, base, offset, memory content and size", "why_tests_cant": "all addresses including the last byte, all offsets", "anchors": ["pywasm/core.py:Machine.evaluate_mem_load, load cases 1924-1965"]}
{"id": "C18", "title": "Stores write exactly the addressed bytes", "statement": "A store traps exactly when its last byte would lie outside the memory, leaving the memory untouched; otherwise bytes [ea, ea+n) become the little-endian bytes of the value modulo 2^(8n), every other byte and the memory length are unchanged.", "quantifier": "every store opcode, base, offset, value and memory", "why_tests_cant": "frame condition over all other addresses", "anchors": ["pywasm/core.py:Machine.evaluate_mem_save, store cases 1966-1983"]}
{"id": "C19", "title": "A load sees the last store", "statement": "Loading with the matching width from an address just stored to yields the stored value (reduced to the width, sign- or zero-extended); a store to a disjoint range does not affect a load.", "quantifier": "all values, addresses, widths, memories", "why_tests_cant": "pairs of addresses", "anchors": ["pywasm/core.py:evaluate_mem_load,evaluate_mem_save"]}
{"id": "C20", "title": "memory.grow and memory.size", "statement": "memory.grow by k pages returns the old size and appends k zero pages keeping all existing bytes if the new size respects the declared maximum and the 1024-page limit of the implementation; otherwise it returns -1 and changes nothing. memory.size returns the current number of pages.", "quantifier": "every memory, every k", "why_tests_cant": "all contents and growth amounts", "anchors": ["pywasm/core.py:MemInst.grow,evaluate memory_size,memory_grow"]}
{"id": "C21", "title": "Memory size invariant", "statement": "Throughout any execution, for any program and any well-behaved host function: the byte length of every memory is 65536 times its page count, never decreases, and never exceeds the declared non-zero maximum; an address that was valid stays valid.", "quantifier": "all programs, all execution lengths, all machine states satisfying the invariant", "why_tests_cant": "an invariant over unbounded executions", "anchors": ["pywasm/core.py:MemInst,Machine.evaluate"]}
{"id": "C22", "title": "A declared maximum of zero is a maximum", "statement": "A memory or table declared with maximum 0 can never grow.", "quantifier": "every memory and table declaration", "why_tests_cant": "the limit object uses 0 for absent", "anchors": ["pywasm/core.py:Limits,MemInst.grow,TableInst.grow,memory_grow,table_grow"]}
{"id": "C23", "title": "Bulk memory instructions", "statement": "memory.fill, memory.copy and memory.init trap exactly when a range leaves its memory or segment, in which case no byte has changed; otherwise every destination byte is the fill byte or the byte the source range held before the instruction (overlap allowed) and all other bytes are unchanged.", "quantifier": "all ranges (overlapping ones included), memories, segments", "why_tests_cant": "overlap in both directions and trap atomicity quantify over all ranges", "anchors": ["pywasm/core.py:evaluate memory_init,memory_copy,memory_fill"]}
{"id": "C24", "title": "Table instructions", "statement": "table.get/set/size/grow/fill/copy/init trap exactly when out of bounds (without partial effect) and otherwise read or update exactly the addressed entries.", "quantifier": "all tables, indices, ranges, references", "why_tests_cant": "as for memory", "anchors": ["pywasm/core.py:evaluate table_*, TableInst.grow"]}
{"id": "C25", "title": "Dropped segments are empty", "statement": "After data.drop or elem.drop, the init instruction on that segment traps unless it copies nothing from offset 0, and no other segment is affected.", "quantifier": "all stores and segments", "why_tests_cant": "history property", "anchors": ["pywasm/core.py:evaluate data_drop,elem_drop,memory_init,table_init"]}
{"id": "C26", "title": "Immutable globals never change", "statement": "No execution of any program changes the value or mutability of a global declared immutable, and a global's index keeps denoting the same global.", "quantifier": "all programs, all execution lengths, all well-behaved host functions", "why_tests_cant": "an invariant over unbounded executions", "anchors": ["pywasm/core.py:evaluate global_set, GlobalInst"]}
{"id": "C27", "title": "Writes through a memory object stay inside the memory", "statement": "MemInst.put and put_u8/16/32/64 with an address range inside the memory replace exactly that range; with a range that is not inside the memory they raise and the memory keeps its length.", "quantifier": "all addresses (negative ones included), data and memories", "why_tests_cant": "the failing addresses are those at the very end or negative", "anchors": ["pywasm/core.py:MemInst.put,put_u8,put_u16,put_u32,put_u64"]}
{"id": "C28", "title": "Structured control flow", "statement": "Running any instruction sequence built from block, loop, if, br, br_if, br_table, return, calls and arbitrary straight-line instructions on the flat value/label/frame stacks has the same effect on operands, locals and store as the structured semantics of Wasm: a branch leaves exactly the enclosing blocks it names, carries the label's values, unwinds the operand stack to the height at block entry, loops restart; a call runs the callee on its own locals and returns exactly its results.", "quantifier": "all nesting depths, programs, operand stacks, and all terminating executions; branches to a called function's outermost label excepted", "why_tests_cant": "programs, nesting and iteration counts are unbounded", "anchors": ["pywasm/core.py:Machine.evaluate,evaluate_br,evaluate_call,evaluate_bype"]}
{"id": "C29", "title": "Branching to the function label returns", "statement": "In a called function, br to the outermost (function) label behaves like return: the caller continues with its own locals.", "quantifier": "all programs", "why_tests_cant": "the spec tests only take this branch in directly invoked functions", "anchors": ["pywasm/core.py:evaluate_call (1758-1772), evaluate_br (1723-1736)"]}
{"id": "C30", "title": "Bounded call depth", "statement": "No execution ever has more than 1024 active frames: a call that would exceed it traps.", "quantifier": "all programs and execution lengths", "why_tests_cant": "unbounded recursion depth", "anchors": ["pywasm/core.py:evaluate_call (1754)"]}
{"id": "C31", "title": "call_indirect is type safe", "statement": "call_indirect enters a function only if that function's type equals the instruction's type; a null entry, an index outside the table or a type mismatch traps without running anything.", "quantifier": "all tables, indices, stores", "why_tests_cant": "all table contents", "anchors": ["pywasm/core.py:evaluate call_indirect (1875-1880)"]}
{"id": "C32", "title": "Parametric and variable instructions", "statement": "drop, select, local.get/set/tee, global.get/set have exactly their specified effect on stack, locals and globals and leave the rest of the machine unchanged.", "quantifier": "all operands, locals, globals, machine states", "why_tests_cant": "frame conditions over the whole state", "anchors": ["pywasm/core.py:evaluate 1881-1912"]}
{"id": "C33", "title": "A successful invocation is clean", "statement": "When Machine.invocate returns normally the result list has exactly the declared result types in order and the value, label and frame stacks are empty, so the machine is ready for the next call.", "quantifier": "all programs, arguments, execution lengths, host functions", "why_tests_cant": "must hold for every terminating run", "anchors": ["pywasm/core.py:Machine.invocate"]}
{"id": "C34", "title": "A trap does not poison the runtime", "statement": "After an invocation traps, invoking an exported function behaves as it would have without the failed invocation's leftover stacks.", "quantifier": "all programs and traps", "why_tests_cant": "depends on history: a trap, then a later call", "anchors": ["pywasm/core.py:Machine.invocate,Machine.evaluate", "test/spec.py clears the stacks by hand"]}
{"id": "C35", "title": "Host functions may call back", "statement": "A host function that invokes an exported function through the same runtime gets that function's results and the suspended caller continues afterwards.", "quantifier": "all programs and host functions", "why_tests_cant": "re-entrancy is a schedule, not an input", "anchors": ["pywasm/core.py:Machine.invocate,evaluate,evaluate_call"]}
{"id": "C36", "title": "Store addresses are stable", "statement": "No execution removes or reorders functions, tables, memories, globals, segments in the store or changes a function, a table's element type or limits; instances only get appended.", "quantifier": "all programs, executions, well-behaved hosts", "why_tests_cant": "invariant over unbounded executions", "anchors": ["pywasm/core.py:Store,Machine.evaluate,Machine.allocate"]}
{"id": "C37", "title": "Instruction decoding inverts encoding", "statement": "Every instruction tree (any nesting, any immediates) encoded per the Wasm binary format is decoded to the same tree by Inst.from_reader, consuming exactly its bytes whatever follows.", "quantifier": "all instruction trees and continuations", "why_tests_cant": "trees are unbounded", "anchors": ["pywasm/core.py:Inst.from_reader,Bype.from_reader,Expr.from_reader", "pywasm/opcode.py"]}
{"id": "C38", "title": "Module decoding inverts encoding", "statement": "Every module description encoded per the Wasm binary format (sections in order) is decoded to the same description by ModuleDesc.from_reader.", "quantifier": "all modules", "why_tests_cant": "modules are unbounded", "anchors": ["pywasm/core.py:ModuleDesc.from_reader and the *.from_reader it calls"]}
{"id": "C39", "title": "No section is ignored", "statement": "Loading a module takes all its sections into account however many custom sections it has.", "quantifier": "all section sequences", "why_tests_cant": "needs more than 32 sections", "anchors": ["pywasm/core.py:ModuleDesc.from_reader (1319)"]}
{"id": "C40", "title": "Decoding is local and makes progress", "statement": "If decoding an instruction or expression succeeds it consumed at least one byte, and it gives the same result whatever bytes follow the consumed ones; so no input makes the loader loop forever.", "quantifier": "all byte streams", "why_tests_cant": "all streams", "anchors": ["pywasm/core.py:Inst.from_reader,Expr.from_reader"]}
{"id": "C41", "title": "Over-aligned accesses are rejected", "statement": "An accepted scalar load or store instruction has an alignment exponent not above its natural alignment.", "quantifier": "all byte streams, all memory opcodes", "why_tests_cant": "all streams", "anchors": ["pywasm/core.py:Inst.from_reader 430-522"]}
{"id": "C42", "title": "Imports are checked before anything changes", "statement": "instance raises, with the store unchanged, if the number of externals differs from the number of imports or any external has another kind, function type, table element type, global type or mutability than its import declares, or a table or memory smaller than the declared minimum.", "quantifier": "all modules, externals, stores", "why_tests_cant": "all mismatches", "anchors": ["pywasm/core.py:Machine.instance 1604-1618, Limits.suit"]}
{"id": "C43", "title": "Index spaces and fresh allocation", "statement": "After instantiation each index space of the instance lists the imported addresses in import order followed by fresh addresses of the module's own definitions in order; everything that was in the store before is still there unchanged by the allocation.", "quantifier": "all modules, externals, stores", "why_tests_cant": "all module shapes", "anchors": ["pywasm/core.py:Machine.allocate, Store.allocate_*"]}
{"id": "C44", "title": "Exports resolve to the right entity", "statement": "Each export of an instance carries its declared name and kind and the address its index has in the instance's index space.", "quantifier": "all modules", "why_tests_cant": "all export lists", "anchors": ["pywasm/core.py:Machine.allocate 1590-1601"]}
{"id": "C45", "title": "Active data segments", "statement": "Instantiation copies every active data segment to its offset or raises if it does not fit; the segment is then dropped.", "quantifier": "all offsets, segments, memories", "why_tests_cant": "boundary at the end of the memory", "anchors": ["pywasm/core.py:Machine.instance 1675-1689"]}
{"id": "C46", "title": "Instantiating twice gives equal instances", "statement": "Instantiating the same module description a second time initialises the new instance's memory like the first time.", "quantifier": "all modules and histories", "why_tests_cant": "needs two instantiations of one description object", "anchors": ["pywasm/core.py:Machine.allocate 1587-1589, data_drop"]}
{"id": "C47", "title": "Only functions can be invoked, with the right number of arguments", "statement": "Runtime.invocate raises before running anything if the name is not exported, does not denote a function, or the number of arguments differs from the function's arity.", "quantifier": "all modules, names, argument lists", "why_tests_cant": "all names", "anchors": ["pywasm/core.py:Runtime.invocate"]}
{"id": "C48", "title": "f32 arithmetic is correctly rounded", "statement": "f32 add, sub, mul, div and sqrt, although computed in double precision, return the IEEE single-precision result rounded once to nearest even for all finite operands.", "quantifier": "all pairs of f32 bit patterns", "why_tests_cant": "2^64 operand pairs; the tests compare with a relative tolerance of 1e-6", "anchors": ["pywasm/core.py:evaluate f32_add..", "ValInst.into_f32,from_f32", "pywasm/arith.py:F32.div"]}
{"id": "C49", "title": "Integer to f32 conversion is correctly rounded", "statement": "f32.convert_i32_s/u and f32.convert_i64_s/u return the f32 nearest to the integer (ties to even).", "quantifier": "all integers of the width", "why_tests_cant": "2^64 integers; the wrong ones are rare double-rounding cases hidden by the tests' tolerance", "anchors": ["pywasm/core.py:evaluate f32_convert_*"]}
{"id": "C50", "title": "Float minimum and maximum", "statement": "min/max return a NaN if an operand is NaN and otherwise the smaller/larger operand, with -0 smaller than +0.", "quantifier": "all operand bit patterns", "why_tests_cant": "tests treat the two zeros as equal", "anchors": ["pywasm/arith.py:F64.min,F64.max,F32.min,F32.max"]}
{"id": "C51", "title": "Rounding instructions", "statement": "ceil, floor, trunc, nearest return the operand rounded to an integral value in the given direction, keeping the sign of a zero result, NaN and infinities.", "quantifier": "all bit patterns", "why_tests_cant": "tests treat the two zeros as equal", "anchors": ["pywasm/core.py:evaluate f32_ceil..f64_nearest"]}
{"id": "C52", "title": "Float to integer truncation", "statement": "The trunc instructions return the integer part exactly when it is representable and trap for NaN, infinities and everything out of range; the saturating ones return 0 for NaN and the nearest bound out of range.", "quantifier": "all bit patterns", "why_tests_cant": "boundary values of each of 8+8 opcodes", "anchors": ["pywasm/core.py:evaluate *_trunc_f*, *_trunc_sat_f*"]}
{"id": "C53", "title": "Sign-bit instructions", "statement": "f32/f64 abs and neg clear and flip exactly the sign bit, for NaNs too; all other bits are kept.", "quantifier": "all bit patterns", "why_tests_cant": "NaN payloads", "anchors": ["pywasm/core.py:evaluate f32_abs,f32_neg,f64_abs,f64_neg"]}
{"id": "C54", "title": "Integer lane arithmetic", "statement": "Each lane of the result of an integer SIMD arithmetic, saturating, shift, min/max, averaging, abs or neg instruction is the scalar operation on the corresponding lanes, independent of all other lanes.", "quantifier": "all 128-bit operands, all lane shapes", "why_tests_cant": "2^256 operand pairs", "anchors": ["pywasm/core.py:evaluate i8x16_*..i64x2_*"]}
{"id": "C55", "title": "Lane comparisons", "statement": "Each lane of a SIMD integer comparison is all ones or all zeros according to the comparison of the corresponding lanes.", "quantifier": "all operands and shapes", "why_tests_cant": "2^256 operand pairs", "anchors": ["pywasm/core.py:evaluate i8x16_eq..i64x2_ge_s"]}
{"id": "C56", "title": "Lane movement", "statement": "splat, extract_lane, replace_lane, shuffle, swizzle move exactly the selected lanes.", "quantifier": "all operands and lane indices", "why_tests_cant": "all index vectors", "anchors": ["pywasm/core.py:evaluate 2859-2967"]}
{"id": "C57", "title": "Widening and narrowing lanes", "statement": "extend, narrow, extmul, extadd_pairwise, dot and q15mulr give the specified lane values without overflow errors.", "quantifier": "all operands", "why_tests_cant": "boundary lanes", "anchors": ["pywasm/core.py:evaluate 3355-3368,3485-3563,3656-3679,3703-3718,3776-3844,3914-3937"]}
{"id": "C58", "title": "128-bit logic", "statement": "not/and/andnot/or/xor/bitselect act bit by bit; any_true/all_true/bitmask summarise exactly the lanes.", "quantifier": "all operands", "why_tests_cant": "2^384 operands", "anchors": ["pywasm/core.py:evaluate 3220-3254, *_all_true, *_bitmask"]}
{"id": "C59", "title": "Closed descriptors stay closed", "statement": "After fd_close(fd) succeeds, every descriptor operation on fd returns EBADF, until fd_renumber gives that number a new meaning; no operation ever reads or writes the host descriptor that was closed.", "quantifier": "all histories of WASI calls", "why_tests_cant": "history property", "anchors": ["pywasm/wasi.py:fd_close,help_badf,fd_renumber"]}
{"id": "C60", "title": "Descriptors are never recycled", "statement": "A descriptor returned by path_open is different from every descriptor handed out before in this session.", "quantifier": "all histories", "why_tests_cant": "history property", "anchors": ["pywasm/wasi.py:path_open"]}
{"id": "C61", "title": "Rights can only shrink", "statement": "fd_fdstat_set_rights either fails leaving the rights unchanged or leaves a subset of them.", "quantifier": "all histories, all requested rights", "why_tests_cant": "all 64-bit masks", "anchors": ["pywasm/wasi.py:fd_fdstat_set_rights"]}
{"id": "C62", "title": "path_open cannot amplify rights", "statement": "A descriptor opened through a directory descriptor has no right that the directory descriptor's inheriting rights lack.", "quantifier": "all histories, all requested rights", "why_tests_cant": "needs a restricted parent", "anchors": ["pywasm/wasi.py:path_open (1150-1245)"]}
{"id": "C63", "title": "Paths cannot leave the preopened directory", "statement": "A path accepted for a path_* call, resolved lexically against the directory, denotes that directory or something below it.", "quantifier": "all path strings, all directory names", "why_tests_cant": "all strings", "anchors": ["pywasm/wasi.py:help_escp"]}
{"id": "C64", "title": "Arguments and environment are laid out exactly", "statement": "args_sizes_get reports the number of arguments and the exact buffer size args_get needs; args_get writes pointers to consecutive NUL-terminated copies of the arguments' bytes and nothing else. Same for the environment.", "quantifier": "all argument lists, including non-ASCII ones", "why_tests_cant": "all strings", "anchors": ["pywasm/wasi.py:args_get,args_sizes_get,environ_get,environ_sizes_get"]}
{"id": "C65", "title": "fd_write gathers all buffers in order", "statement": "fd_write to a stream appends exactly the concatenation of the described buffers and reports its length.", "quantifier": "all iovec lists and memories", "why_tests_cant": "all layouts", "anchors": ["pywasm/wasi.py:fd_write"]}
{"id": "C66", "title": "fd_read scatters in order", "statement": "fd_read fills the described buffers in order with the next bytes of the stream, reports how many, and touches no other memory; it reports 0 only at end of stream or when all buffers are empty.", "quantifier": "all iovec lists, streams, memories", "why_tests_cant": "empty buffers in the middle", "anchors": ["pywasm/wasi.py:fd_read"]}
{"id": "C67", "title": "A failed seek changes nothing", "statement": "If fd_seek returns an error the file position is what it was.", "quantifier": "all positions, offsets, whences", "why_tests_cant": "the probe moves the position first", "anchors": ["pywasm/wasi.py:fd_seek"]}
{"id": "C68", "title": "Only preopened directories are reported as preopened", "statement": "fd_prestat_get succeeds exactly for the descriptors of preopened directories.", "quantifier": "all descriptor numbers", "why_tests_cant": "low numbers are never tried by libc", "anchors": ["pywasm/wasi.py:fd_prestat_get,fd_prestat_dir_name"]}
{"id": "C69", "title": "Renumbering a descriptor to itself is harmless", "statement": "fd_renumber(fd, fd) keeps fd usable.", "quantifier": "all histories", "why_tests_cant": "corner case", "anchors": ["pywasm/wasi.py:fd_renumber"]}
{"id": "C70", "title": "Exit status is reported", "statement": "wasi.main returns the status the program passed to proc_exit and 0 if it returns normally, and leaves the machine's stacks empty.", "quantifier": "all programs and statuses", "why_tests_cant": "all statuses", "anchors": ["pywasm/wasi.py:main,proc_exit"]}
{"id": "C71", "title": "Guest pointers are unsigned", "statement": "A WASI call with a guest pointer at or above 2^31 or beyond the end of memory fails without changing the size of the memory.", "quantifier": "all pointers and memories", "why_tests_cant": "needs huge pointers", "anchors": ["pywasm/wasi.py:args_get etc.", "pywasm/core.py:MemInst.put*"]}
{"id": "C72", "title": "Values and tables stay in order", "statement": "Throughout any sequence of calls of the interpreter, for any programs and well-behaved host functions: every value held on the operand stack, in locals, globals, tables and element segments consists of exactly 16 bytes, and every table has exactly as many entries as its size says, no more than its non-zero maximum, and never shrinks.", "quantifier": "all programs, all sequences of loads, instantiations, invocations and allocations, all execution lengths, all well-behaved host functions", "why_tests_cant": "An invariant over every reachable state of every program; a test sees a few states of a few programs.", "anchors": ["pywasm/core.py:69-303", "pywasm/core.py:948-972", "pywasm/core.py:1795-4107"]}
{"id": "C73", "title": "Over-aligned vector accesses are rejected", "statement": "An accepted vector load, store, splat, zero-extending load or lane load or store has an alignment exponent not above its natural alignment.", "quantifier": "all byte streams, all vector memory opcodes", "why_tests_cant": "all streams; the check is written out separately for each opcode and absent for some", "anchors": ["pywasm/core.py:Inst.from_reader 561-640"]}
{"id": "C74", "title": "Declared lengths are the lengths present", "statement": "If a section, a data segment or a function body declares a length, the loader accepts the module only if that many bytes are there.", "quantifier": "all byte streams", "why_tests_cant": "all streams; a short read is silent in Python", "anchors": ["pywasm/core.py:ModuleDesc.from_reader 1323-1392", "pywasm/core.py:DataDesc.from_reader 1245-1261"]}
{"id": "C75", "title": "Functions and bodies match", "statement": "The loader accepts a module only if its code section has exactly one body for every function of its function section.", "quantifier": "all byte streams", "why_tests_cant": "all streams", "anchors": ["pywasm/core.py:ModuleDesc.from_reader 1340-1383"]}
{"id": "C76", "title": "Float comparisons", "statement": "f32/f64 eq, ne, lt, gt, le, ge push 1 or 0 according to the IEEE order: false on NaN operands (ne true), the two zeros equal.", "quantifier": "all pairs of bit patterns", "why_tests_cant": "2^128 operand pairs, NaN payloads", "anchors": ["pywasm/core.py:evaluate 2253-2361"]}
{"id": "C77", "title": "f64 arithmetic is IEEE arithmetic", "statement": "f64 add, sub, mul, div and sqrt return the IEEE double-precision result for all operands and never raise, although Python's own division and square root raise on zero and negative operands.", "quantifier": "all pairs of f64 bit patterns", "why_tests_cant": "2^128 operand pairs; tests compare with a tolerance", "anchors": ["pywasm/core.py:evaluate f64_add..f64_sqrt", "pywasm/arith.py:F64.div"]}
{"id": "C78", "title": "Float to float and integer to f64 conversion", "statement": "f32.demote_f64 rounds once to nearest even (overflow gives an infinity, never an exception), f64.promote_f32 is exact, f64.convert_i* rounds once to nearest even.", "quantifier": "all bit patterns and integers", "why_tests_cant": "2^64 operands", "anchors": ["pywasm/core.py:evaluate f32_demote_f64,f64_promote_f32,f64_convert_*", "ValInst.from_f32"]}
{"id": "C79", "title": "copysign", "statement": "f32/f64.copysign return the first operand with its sign bit replaced by the second's, all other bits kept, for NaNs too.", "quantifier": "all pairs of bit patterns", "why_tests_cant": "signalling NaN payloads", "anchors": ["pywasm/core.py:evaluate f32_copysign 2430,f64_copysign 2503"]}
{"id": "C80", "title": "Float vector arithmetic", "statement": "Each lane of f32x4/f64x2 add, sub, mul, div and sqrt is the IEEE-754 operation on the corresponding lanes, rounded once to the lane's format (any NaN for a NaN).", "quantifier": "all 128-bit operands", "why_tests_cant": "2^256 operand pairs; f32 lanes are computed in double and narrowed, so double rounding has to be excluded by proof", "anchors": ["pywasm/core.py:evaluate f32x4_add..f64x2_sqrt 3934-4040", "pywasm/core.py:ValInst.from_v128_f32"]}
{"id": "C81", "title": "Float vector comparisons", "statement": "Each lane of f32x4/f64x2 eq, ne, lt, gt, le, ge is all ones or all zeros according to the IEEE comparison of the lanes; comparisons with a NaN are false except ne.", "quantifier": "all 128-bit operands", "why_tests_cant": "2^256 operand pairs, NaN and signed zero in every lane", "anchors": ["pywasm/core.py:evaluate f32x4_eq..f64x2_ge"]}
{"id": "C82", "title": "Float vector minimum and maximum", "statement": "Lanes of f32x4/f64x2 min and max are NaN if an operand lane is, otherwise the smaller/larger lane with -0 below +0; pmin/pmax return the second lane bit for bit if it compares smaller/larger, the first one otherwise.", "quantifier": "all 128-bit operands", "why_tests_cant": "zeros of opposite sign and signalling NaNs are a vanishing share of the operands", "anchors": ["pywasm/core.py:evaluate f32x4_min..f32x4_pmax, f64x2_min..f64x2_pmax", "pywasm/arith.py:F64.min"]}
{"id": "C83", "title": "Float vector rounding", "statement": "Each lane of f32x4/f64x2 ceil, floor, trunc, nearest is IEEE roundToIntegral of the lane, keeping the sign of a zero result.", "quantifier": "all 128-bit operands", "why_tests_cant": "2^128 operands", "anchors": ["pywasm/core.py:evaluate f32x4_ceil..f64x2_nearest"]}
{"id": "C84", "title": "Float vector abs and neg", "statement": "f32x4/f64x2 abs and neg clear or flip the top bit of each lane and keep every other bit, NaN payloads included.", "quantifier": "all 128-bit operands", "why_tests_cant": "signalling NaN payloads", "anchors": ["pywasm/core.py:evaluate f32x4_abs,f32x4_neg,f64x2_abs,f64x2_neg"]}
{"id": "C85", "title": "Vector conversions between floats and integers", "statement": "trunc_sat stores each lane's truncation clamped to the target range (0 for NaN, zeros in the unused lanes); convert rounds each integer lane once; demote and promote convert the lanes' values exactly or rounded once.", "quantifier": "all 128-bit operands", "why_tests_cant": "2^128 operands, infinities and NaNs in every lane", "anchors": ["pywasm/core.py:evaluate f32x4_demote_f64x2_zero, f64x2_promote_low_f32x4, 4064-4105"]}
{"id": "C86", "title": "Every WASI call enforces its right", "statement": "A call on an open descriptor that lacks the right the standard names for that call returns an error (76, or an earlier check's error) and changes nothing: no call reaches the operating system, no memory or table entry changes.", "quantifier": "all 31 calls that need a right, all arguments, all descriptor tables, all operating systems", "why_tests_cant": "every combination of call, descriptor state and 64-bit rights mask", "anchors": ["pywasm/wasi.py:help_perm 996-1006", "pywasm/wasi.py:the first lines of every fd_*, path_*, sock_* method"]}
{"id": "C87", "title": "Rights that go together", "statement": "Opening with O_CREAT needs path_create_file, with O_TRUNC path_filestat_set_size; fd_pread and fd_pwrite need fd_seek as well; fd_seek includes fd_tell.", "quantifier": "all calls of path_open, fd_pread, fd_tell", "why_tests_cant": "rights are rarely reduced in tests, and only by single bits", "anchors": ["pywasm/wasi.py:path_open 1150-1245", "pywasm/wasi.py:fd_pread 744-769", "pywasm/wasi.py:fd_tell 934-945"]}
{"id": "C88", "title": "fd_seek and fd_tell", "statement": "A seek to a position that is not negative succeeds, stores the new 64-bit position and leaves the file there, for all three origins; fd_tell stores the position and does not move it.", "quantifier": "all offsets, origins, file sizes and histories of the file", "why_tests_cant": "2^64 offsets and every earlier position", "anchors": ["pywasm/wasi.py:fd_seek 900-920", "pywasm/wasi.py:fd_tell 934-945"]}
{"id": "C89", "title": "fd_pread and fd_pwrite", "statement": "fd_pread fills the buffers in order with the bytes at the given offset and stores their number; fd_pwrite writes the bytes of the buffers in order at the given offset with one system call; neither moves the file position.", "quantifier": "all buffer lists, offsets and file contents", "why_tests_cant": "unbounded buffer lists, sizes and offsets", "anchors": ["pywasm/wasi.py:fd_pread 744-769", "pywasm/wasi.py:fd_pwrite 794-815"]}
{"id": "C90", "title": "fd_fdstat_set_flags", "statement": "Setting the flags APPEND and NONBLOCK of a descriptor sets exactly these flags of the host descriptor and is reflected in the table.", "quantifier": "all descriptors and flags", "why_tests_cant": "flags interact with the host's flag word bit by bit", "anchors": ["pywasm/wasi.py:fd_fdstat_set_flags 650-672"]}
{"id": "C91", "title": "fd_filestat_set_times", "statement": "After the call each of the two times is kept, set to the argument or set to the present time, as the flags say.", "quantifier": "all flags, times and present times", "why_tests_cant": "64-bit times and a clock", "anchors": ["pywasm/wasi.py:fd_filestat_set_times 719-742"]}
{"id": "C92", "title": "poll_oneoff with an absolute deadline", "statement": "A subscription to an absolute clock time that lies ahead makes the call wait until then and report the event.", "quantifier": "all deadlines, clocks and present times", "why_tests_cant": "depends on the clock", "anchors": ["pywasm/wasi.py:poll_oneoff 1370-1444"]}
{"id": "C93", "title": "fd_filestat_get describes the open file", "statement": "fd_filestat_get stores the attributes of the file the descriptor is opened on, in the layout of the standard.", "quantifier": "all descriptors and file system states", "why_tests_cant": "needs a file renamed or unlinked while open", "anchors": ["pywasm/wasi.py:fd_filestat_get 688-702"]}
{"id": "C94", "title": "No network for the guest", "statement": "Whatever calls a guest makes, every sock_ call returns EBADF or ENOTSOCK and has no effect.", "quantifier": "all histories of WASI calls, all operating systems", "why_tests_cant": "unbounded call histories", "anchors": ["pywasm/wasi.py:help_sock", "pywasm/wasi.py:sock_accept, sock_recv, sock_send, sock_shutdown 1470-1623", "pywasm/wasi.py:help_wasm_type"]}
{"id": "C95", "title": "Errors of the operating system become error numbers", "statement": "When the operating system reports an error, a path call returns the WASI number of that error and does not raise.", "quantifier": "all path calls, arguments and errors", "why_tests_cant": "every error at every call", "anchors": ["pywasm/wasi.py:path_create_directory .. path_unlink_file 1046-1370"]}
{"id": "C96", "title": "fd_fdstat_get", "statement": "fd_fdstat_get stores the descriptor's type, flags, rights and inheriting rights in the layout of the standard and writes nothing outside the structure.", "quantifier": "all descriptors, addresses and memories", "why_tests_cant": "all rights masks and addresses", "anchors": ["pywasm/wasi.py:fd_fdstat_get 638-648"]}
{"id": "C97", "title": "Clocks and random bytes", "statement": "clock_time_get stores the 64-bit time of the clock asked for; random_get fills exactly the bytes asked for.", "quantifier": "all clocks, times, addresses and lengths", "why_tests_cant": "outputs are not reproducible", "anchors": ["pywasm/wasi.py:clock_time_get 565-569", "pywasm/wasi.py:random_get 1459-1463"]}
{"id": "C98", "title": "fd_readdir", "statement": "Starting at the entry asked for, the entries of the directory that fit into the buffer are stored in order (header with next number, inode, length of the name in bytes, type; then the name in UTF-8), nothing outside the buffer is written, and the size used is stored.", "quantifier": "all directories, buffer sizes and start entries", "why_tests_cant": "unbounded directories, every buffer boundary", "anchors": ["pywasm/wasi.py:fd_readdir 847-875"]}
{"id": "C99", "title": "Validated code never goes wrong", "statement": "When all functions of a store are well typed in the sense of the standard's validation rules (branches to a function's own outermost label, C29, left out), a call with arguments of the right types raises only at an instruction that the standard allows to trap: never by popping an empty stack, reading a missing local, global, label, type, table or memory, or failing an internal assertion of the interpreter. The store stays well typed, whether the call returns or raises.", "quantifier": "all well-typed stores and functions, all arguments, all host functions that respect types, all numbers of interpreter turns", "why_tests_cant": "pywasm has no validator; that every check it leaves out is implied by validation is a statement about all programs", "anchors": ["pywasm/core.py:Machine.evaluate 1795-4107", "pywasm/core.py:Machine.evaluate_br 1723-1736", "pywasm/core.py:Machine.evaluate_call 1747-1778", "pywasm/core.py:Machine.invocate 1701-1721"]}
{"id": "C100", "title": "A validated call that ends returns its declared results", "statement": "A call of a validated function with arguments of its parameter types that runs to its end within the limit on turns of the loop returns: the interpreter's own final checks of the stacks and of the result types never fail. It returns exactly as many values as the function type declares, of the declared types, and leaves all three stacks empty.", "quantifier": "all well-typed stores, functions, arguments, host functions that respect types, numbers of turns", "why_tests_cant": "all programs", "anchors": ["pywasm/core.py:Machine.invocate 1701-1721"]}
{"id": "C101", "title": "Operands always have the expected types", "statement": "In every state that a call of a validated function reaches, when a value instruction is about to run, the topmost operands exist and have exactly the types of its signature, and lie above the operands of the enclosing block.", "quantifier": "all well-typed stores, functions, arguments, reachable states, value instructions", "why_tests_cant": "all reachable states of all programs", "anchors": ["pywasm/core.py:Machine.evaluate 1795-4107"]}
{"id": "C102", "title": "Only the binary format is accepted", "statement": "The loader accepts a byte string only if it is the encoding of a module in the WebAssembly binary format; in particular wrong tags, types, kinds, opcodes, lanes, alignments, ill-formed UTF-8 and truncated parts are refused, and the description it returns is the one the bytes encode.", "quantifier": "all byte strings", "why_tests_cant": "the space of byte strings; a malformed module that is accepted is only found by guessing it", "anchors": ["pywasm/core.py:Inst.from_reader 364-708", "pywasm/core.py:ModuleDesc.from_reader 1303-1394"]}
{"id": "C103", "title": "Instantiating a validated module", "statement": "Instantiating a module that passes validation, with imports of the declared types, into a runtime whose functions are validated either succeeds, and then the new instance has the types the module declares and every function of the runtime is still validated; or it raises because an active element segment, an active data segment or the start function traps. No check of the interpreter on its own stacks, no conversion and no index lookup fails on the way.", "quantifier": "all validated modules, import lists, runtimes, host functions that respect types", "why_tests_cant": "quantifies over modules and over the runtimes they are added to", "anchors": ["pywasm/core.py:Machine.allocate 1553-1602", "pywasm/core.py:Machine.instance 1604-1699"]}
{"id": "C104", "title": "Calls of exported functions of a validated module", "statement": "After a validated module has been loaded and instantiated, calling one of its exported functions by name through Runtime.invocate, with as many arguments as it has parameters and of the right kinds, raises only a trap of an instruction that the standard allows to trap; otherwise it returns one result for each result type. This stays so for any sequence of such calls, trapping ones included.", "quantifier": "all validated modules, exports, arguments, sequences of calls, host functions that respect types", "why_tests_cant": "quantifies over modules, arguments and histories of calls", "anchors": ["pywasm/core.py:Runtime 4110-4177", "pywasm/core.py:Machine.instance 1604-1699", "pywasm/core.py:Machine.invocate 1701-1721"]}
{"id": "C105", "title": "Runs of validated functions are the structured runs", "statement": "For a validated function the interpreter does nothing but what the structured semantics of WebAssembly allows: whenever an invocation ends before its limit on turns, with results or with an exception, the structured semantics has a run of the function on the same arguments and store that ends with those results or with a trap, and with the same store. Together with C28 the two agree exactly.", "quantifier": "all validated stores, functions, well-typed arguments, nesting and iteration, host functions that respect types; a call_indirect through a reference to a function that does not exist excepted", "why_tests_cant": "programs, states, iteration counts and call depths are unbounded", "anchors": ["pywasm/core.py:Machine.evaluate 1795-4107", "pywasm/core.py:Machine.invocate 1701-1721", "pywasm/core.py:evaluate_br 1723-1741", "pywasm/core.py:evaluate_call 1743-1766"]}
{"id": "C106", "title": "Function references never dangle, and validated functions then run exactly as the structured semantics says", "statement": "As long as the program using pywasm passes only numbers of existing functions where references are expected (initial values of globals, arguments, results of host functions), every function reference anywhere in the machine - tables, globals, element segments, stack, locals - is null or refers to a function of the store, and so do the function addresses of every module instance. This holds of any code, validated or not, after any number of turns and also when an exception was raised, and after any history of loading, instantiating and calling. Hence call_indirect in a validated function never calls anything but the function its table entry refers to, and the exception for stray references in C105 disappears: a validated function returns R exactly if it has a structured run with results R, raises exactly if it has one that traps, and runs forever exactly if it has none.", "quantifier": "for all code, stores, arguments, numbers of turns and host functions that do not make up references; for all histories of validated modules and calls", "why_tests_cant": "A reference can travel through any number of tables, globals, modules and host calls before it is used; Python's negative indexing would make a wrong one call some other function without any error.", "anchors": ["pywasm/core.py:203-205", "pywasm/core.py:1604-1699", "pywasm/core.py:1875-1880", "pywasm/core.py:2658-2661", "pywasm/core.py:4110-4177"]}
{"id": "C107", "title": "Validated functions run as the WebAssembly standard prescribes, up to a list of named deviations", "statement": "The meaning of every WebAssembly instruction other than control flow is stated once, as a relation between the operands, locals and store before and after (or a trap), built only from the standard's definitions: integer arithmetic modulo 2^N, IEEE-754 arithmetic with any NaN for a NaN, lane-wise vector operations, little-endian memory, tables, globals, locals, references and segments. In every state that a validated function reaches, the instruction that is run next does exactly what this relation says, or the state is one of ten named deviations (i64.div_u with a quotient of 2^63 or more; f32.convert_i64 of an integer that is not a 53-bit integer times a power of two; min and max of zeros of opposite signs; ceil, floor, trunc and nearest whose result is the negative zero; f32.copysign of a NaN; the vector forms of these and of f32x4.pmin, pmax, abs and neg on NaN lanes; data.drop of a segment whose bytes another instance shares). Hence every invocation of a validated function that ends is a run of the structured semantics in which each straight-line instruction has its standard meaning, unless it comes to one of these deviations or to a stray reference.", "quantifier": "every typed store, validated function, well-typed arguments, typed and well-behaved host functions, and number of turns", "why_tests_cant": "It is a statement about whole programs: all instruction sequences, nestings, calls and data, with every possible operand of every instruction.", "anchors": ["pywasm/core.py:1795-4107", "pywasm/core.py:1701-1766"]}
{"id": "C108", "title": "Instantiating a validated module does what the WebAssembly standard prescribes", "statement": "Instantiating a freshly loaded validated module, with imports that fit, first adds to the store exactly the objects the module describes: one function instance per function, tables filled with null references, zeroed memories of the initial size, globals and element segments with the values of their constant expressions (which see the imported globals and all functions), data segments, and a module instance whose index spaces list the imports first and whose exports are as written. It then runs, in this order and until one traps: for each active element segment its offset, table.init of the whole segment and elem.drop; elem.drop for each declared segment; for each active data segment its offset, memory.init of the whole segment and data.drop; the start function. Each of these is a run of the structured semantics with the standard's meaning of every instruction (C107); instantiation returns exactly when all of them end and raises exactly when one traps, with the store they leave behind, unless one of them reaches the limit on turns, a stray reference or a named deviation of C107. After an honest history (C106) there are no stray references.", "quantifier": "every typed store, validated module just loaded, list of fitting imports, typed and well-behaved host functions, and number of turns", "why_tests_cant": "Modules, imports and stores of every shape and size; the effect of each segment depends on all earlier ones, and the start function is an arbitrary program.", "anchors": ["pywasm/core.py:1553-1699"]}
{"id": "C109", "title": "From the bytes of a module to the results of its functions", "statement": "For every module in the binary format (within the limits the loader can represent) that is validated: pywasm loads its bytes as exactly that module; after it is instantiated in a runtime with an honest history (C106), and after any further honest use of the runtime, calling an exported function of the module with Python values of the kinds of its parameters finds the function written in the module under that name, and the call returns exactly the Python values of the results of a run of that function's code in the structured semantics with the standard's meaning of every instruction (C107), or raises exactly when that run traps or one of its results is a null reference - unless it reaches the limit on turns or one of the named deviations of C107.", "quantifier": "every validated module and every encoding of it, every honest history before and after, imports that fit, exported function, arguments of the right kinds, typed and well-behaved host functions, and number of turns", "why_tests_cant": "It is the correctness of the whole chain decoder, instantiation, interpreter and value conversion, for all modules and inputs at once.", "anchors": ["pywasm/core.py:1303-1394", "pywasm/core.py:1604-1766", "pywasm/core.py:4110-4177"]}
{"id": "C110", "title": "Path calls do what their names say", "statement": "path_create_directory, path_remove_directory, path_unlink_file, path_symlink, path_link and path_rename, and likewise fd_sync and fd_filestat_set_size, on open descriptors that have the rights, with names that are valid UTF-8 in the guest's memory and lead into the descriptor's directory: make exactly one request to the operating system, namely the one their name says, about exactly the names given (in the order given), relative to the directories of exactly the descriptors given, following a last symbolic link only if asked to; they report success if and only if the request succeeds, and change neither the guest's memory nor the descriptor table. Conversely, whenever one of these calls reports success, it has made exactly that one request.", "quantifier": "every operating system, every world, every memory content, argument values and name", "why_tests_cant": "Tests run against one real file system; swapped arguments, a wrong directory descriptor or an extra effect show only for particular names and trees.", "anchors": ["pywasm/wasi.py:922-932", "pywasm/wasi.py:1046-1061", "pywasm/wasi.py:1124-1148", "pywasm/wasi.py:1268-1370"]}
{"id": "C111", "title": "path_filestat_get", "statement": "path_filestat_get on an open directory descriptor with the right asks the operating system once for the attributes of the name given, relative to that directory, following a last symbolic link exactly if the lookup flag says so, and writes exactly the 64 bytes of the standard's filestat structure made from the reply (except the device, see C93); nothing else changes.", "quantifier": "every operating system, world, name, lookup flags and reply with values that fit in 64 bits", "why_tests_cant": "A wrong offset or a field taken from another one is visible only when the fields differ; tests check the size at most.", "anchors": ["pywasm/wasi.py:1063-1088"]}
{"id": "C112", "title": "path_readlink", "statement": "path_readlink writes into the guest's buffer the bytes of the link's target, cut off at the length of the buffer, reports the number of bytes written, and writes nothing outside the buffer and the place for the number.", "quantifier": "every operating system, world, link target and buffer length", "why_tests_cant": "Tests use short ASCII targets and large buffers; the code counts characters where the standard counts bytes, which differs only for other characters.", "anchors": ["pywasm/wasi.py:1247-1266"]}
{"id": "C113", "title": "fd_allocate", "statement": "If fd_allocate(fd, offset, length) reports success, then the file has at least offset + length bytes, the bytes it had before are kept, and the position of the descriptor is where it was.", "quantifier": "every operating system on which the descriptor is a file, every file size, position, offset and length", "why_tests_cant": "An operating system may write fewer bytes than asked (Linux does above 2 GiB); no test reaches that.", "anchors": ["pywasm/wasi.py:601-617"]}
{"id": "C114", "title": "path_filestat_set_times", "statement": "path_filestat_set_times sets the two time stamps of the file named to the present time, the given time, or leaves them as they are, according to its flags; without the lookup flag it works on a symbolic link itself; a missing file is reported as ENOENT.", "quantifier": "every operating system, world, name, flags and times", "why_tests_cant": "It needs a symbolic link whose own time stamps differ from its target's, and a name that does not exist.", "anchors": ["pywasm/wasi.py:1090-1122"]}
{"id": "C115", "title": "poll_oneoff reports what happened", "statement": "poll_oneoff returns when at least one of its subscriptions has an event, and writes for each subscription with an event one 32-byte event structure with the subscription's user data, no error, and its kind, and the number of events; a clock subscription uses the 32-bit clock identifier it contains.", "quantifier": "every operating system, world, number of subscriptions and content of the guest's memory", "why_tests_cant": "It depends on padding bytes of the subscription, on descriptors that stay silent for eight seconds and on every mixture of subscriptions.", "anchors": ["pywasm/wasi.py:1372-1444"]}
{"id": "C116", "title": "WASI calls write only where they are told to", "statement": "A WASI call writes to the guest's memory only within the result ranges its arguments describe; if such a range leaves the memory, the call does not change the memory and reports an error; and a name or buffer that leaves the memory is refused.", "quantifier": "every call, operating system, world and argument values", "why_tests_cant": "Python slices neither fail nor stop at the end: a range that leaves memory silently gives fewer bytes or makes the memory longer, which no test looks at.", "anchors": ["pywasm/wasi.py:430-1623", "pywasm/core.py:855-926"]}
{"id": "C117", "title": "What a program run under WASI can ask of the operating system", "statement": "Whatever module is run with the WASI functions bound (validated or not, from any state of the machine), every request made to the operating system during the run is made by a WASI function the program called, on the descriptor table as the calls before left it; so the run is a history of WASI calls in the sense of C59-C63 and C86, no socket is ever used, and from the constructor to the end of main the operating system is only asked to work on host descriptors that are open.", "quantifier": "every module, machine state, operating system, number of turns, arguments, directories and environment", "why_tests_cant": "A program can interleave WASI calls with arbitrary computation in endless ways; tests run a handful of programs.", "anchors": ["pywasm/wasi.py:503-555", "pywasm/wasi.py:1021-1044", "pywasm/core.py:1738-1766", "pywasm/core.py:1795-1809"]}
{"id": "C118", "title": "Validated WASI programs run safely", "statement": "A validated module that imports WASI functions under the types that bind gives them never goes wrong when run: until the end of the run the stacks and the store stay well typed and every memory is a whole number of pages, and an exception is only raised at an instruction that the standard allows to trap or inside a WASI call.", "quantifier": "every validated module, operating system, WASI state and number of turns", "why_tests_cant": "Needs an invariant over all programs, all interleavings of computation and system calls, and all replies of the operating system.", "anchors": ["pywasm/wasi.py:503-555", "pywasm/wasi.py:1021-1044", "pywasm/core.py:855-926", "pywasm/core.py:1795-4107"]}
{"id": "C119", "title": "What main returns and leaves behind", "statement": "Preview1.main returns 0 if _start returns, the argument of proc_exit if the program calls it, and raises what the program raises otherwise; in all cases the stacks of the machine are empty afterwards, and every host descriptor that was opened for the guest (preopened directories and files opened by path_open) has been closed exactly once.", "quantifier": "every module, machine state, operating system and number of turns", "why_tests_cant": "Descriptor leaks and wrong exit codes show only for particular sequences of calls and failures.", "anchors": ["pywasm/wasi.py:456-479", "pywasm/wasi.py:1021-1044", "pywasm/wasi.py:1150-1245", "pywasm/wasi.py:1446-1451"]}
{"id": "C120", "title": "A Preview1 object after main", "statement": "After main has closed the host descriptors, the guest's descriptors for them are closed too: a later call, for instance in a second run of main with the same object, never makes the operating system work on a host descriptor that is closed.", "quantifier": "every operating system, program and sequence of runs", "why_tests_cant": "The closed number may meanwhile belong to another file of the host program; a test sees at most an error.", "anchors": ["pywasm/wasi.py:1021-1044", "pywasm/wasi.py:973-974"]}
{"id": "C121", "title": "A call works only on the descriptors given to it", "statement": "Every request that a WASI call other than poll_oneoff makes to the operating system works only on the host descriptors behind the open descriptors among the call's arguments, or (path_open) on the host descriptor that an earlier request of the same call opened; this holds in every state of the descriptor table, also after descriptors were closed, renumbered or left over by an earlier run.", "quantifier": "every state, operating system, WASI function and argument list", "why_tests_cant": "A call that works on the wrong host descriptor does visible damage only for particular tables, for instance after renumbering or with negative numbers.", "anchors": ["pywasm/wasi.py:575-1019", "pywasm/wasi.py:1046-1370", "pywasm/wasi.py:1470-1623"]}
{"id": "C122", "title": "Arguments and environment from the command line", "statement": "With --wasi, the program's arguments are the file name followed by the values of --wasi-args in order, and its environment has exactly one variable for every name set by --wasi-envs, with the value set last; only the first equals sign separates, names and values are otherwise arbitrary. They stay the same for the whole run, whatever the program calls. If a --wasi-envs value has no equals sign or a --wasi-dirs value no colon, the command raises before it asks anything of the operating system.", "quantifier": "all option values (any number, any characters), files, programs, operating system replies and run lengths", "why_tests_cant": "Strings with repeated separators, repeated keys in any position, and any sequence of calls by the program are unbounded; tests use one or two well-formed settings.", "anchors": ["pywasm/__main__.py:18-34", "pywasm/wasi.py:411-479"]}
{"id": "C123", "title": "Directories from the command line", "statement": "With --wasi, once the constructor has succeeded, the descriptors from 3 on stand for the directories given by --wasi-dirs: a guest directory is open for host directory v exactly if guest:v is the last setting of that guest name, and no guest directory has two descriptors.", "quantifier": "all lists of --wasi-dirs values whose guest names are in normal form and whose host names are absolute and in normal form, all operating system replies with which the constructor succeeds", "why_tests_cant": "Any number of directories, any names, repeated settings.", "anchors": ["pywasm/__main__.py:22-24", "pywasm/wasi.py:411-479"]}
{"id": "C124", "title": "Calling a function from the command line", "statement": "Without --wasi, the command calls the function exported as --func with the values that the --func-args stand for by the types of its parameters (decimal numerals for integers, Python floats, 0x and hexadecimal digits for vectors) and prints what stands for the results that the WebAssembly standard prescribes. If the number of arguments is wrong, or one of them is not such a value or out of range for its parameter, or a parameter is a reference, the command raises without having run the function.", "quantifier": "all modules in the binary format that are valid and import nothing, all exported functions, all lists of argument strings", "why_tests_cant": "All modules, functions and strings; the tests of the command line run a few files.", "anchors": ["pywasm/__main__.py:37-57", "pywasm/core.py:4110-4177"]}
{"id": "C125", "title": "The exit status of the command", "statement": "With --wasi, the exit status is the low byte of the number that the program passes to proc_exit; 0 if _start returns; 1 if it raises.", "quantifier": "all options, programs, operating system replies and run lengths", "why_tests_cant": "All programs and all ways in which they end.", "anchors": ["pywasm/__main__.py:18-34", "pywasm/__main__.py:59-61", "pywasm/wasi.py:1021-1044"]}
{"id": "C126", "title": "Only the code of functions is executed, and code that avoids the instructions known to deviate runs exactly as the standard prescribes", "statement": "Whatever a call of an exported function does (calls, indirect calls, branches, calls of host functions that do not touch the running code), every instruction that the interpreter comes to execute is written in the body of some WebAssembly function of the store, and every WebAssembly function of a store was in a module that was loaded into the runtime, however earlier calls and instantiations ended. Hence, if no module loaded contains one of the 33 instructions that pywasm does not always execute by the standard, a validated module's exported function gives exactly the standard's result, trap or non-termination.", "quantifier": "all runtimes made by any sequence of loads, instantiations, allocations and calls ending in any way, all functions, arguments, numbers of steps, states reached and instructions", "why_tests_cant": "The set of instructions reached depends on all inputs, host functions and histories; a test shows which instructions one run executes, not that no run executes any other code.", "anchors": ["pywasm/core.py:1701-1721", "pywasm/core.py:1730-1778", "pywasm/core.py:1795-1849", "pywasm/core.py:1553-1602"]}
{"id": "C127", "title": "No wrong answers: a call that is cut off raises, and whatever is returned or printed is the standard's result", "statement": "The interpreter runs at most a fixed number of turns (2^32 in the code) and then leaves its loop as if the code had ended. A call that is cut off in this way always raises and never returns results, for any function and arguments; and so does an expression evaluated during instantiation (an initial value, an offset, the call of the start function) that is cut off. Hence, in a runtime whose modules contain no suspect instruction (C126), whenever calling an exported function of a validated module returns a list of Python values, the standard's run of that function on those arguments ends with results that these values stand for, and the store left behind is the one of that run; and whatever the command line prints are such results.", "quantifier": "all limits on the number of turns, all machines at rest, functions, arguments; for the second part all validated modules without suspect instructions, all honest histories, exported functions and arguments", "why_tests_cant": "The limit is 2^32 turns, which no test reaches; and that no returned value is wrong concerns all modules and arguments.", "anchors": ["pywasm/core.py:1701-1721", "pywasm/core.py:1795-1807", "pywasm/core.py:4164-4177", "pywasm/__main__.py:37-57"]}
{"id": "C128", "title": "The standard leaves one result, and pywasm returns it", "statement": "The standard leaves two things open: which NaN an arithmetic float instruction produces, and whether memory.grow and table.grow succeed. A run of the standard's semantics in which no arithmetic instruction produces a NaN and nothing grows (and data.drop, which pywasm executes differently, is not used) is the only run from its start: every other run of the same code from the same store, locals and operands ends with the same store, the same locals and the same outcome. Hence, when a call of an exported function of a validated module is finished within its limit and meets neither a known deviation nor such a choice, the standard's run exists, it is the only one, and the call returns the values that stand for exactly its results and leaves exactly its store, or raises exactly because it traps or has a null reference among its results. For modules made of instructions without deviations and without choices this holds for every call that is not cut off.", "quantifier": "all code, stores, locals, operands and pairs of runs of it, of any length and call depth; for the second part all validated modules, honest histories, exported functions, arguments and limits", "why_tests_cant": "That no other result would also be right is a statement about all runs of a relation, of unbounded length; a test compares with one expected value.", "anchors": ["pywasm/core.py:1701-1721", "pywasm/core.py:1795-1807", "pywasm/core.py:2050-4140", "pywasm/core.py:4164-4177"]}
{"id": "C129", "title": "Programs that end by the standard end in pywasm", "statement": "Whenever the standard's semantics has a run of an exported function of a validated module, called with given Python arguments, then pywasm's call ends too: either the run of the interpreter comes to a known deviation or to an instruction where the standard leaves a choice (C128), or there is a number of turns from which on every call gives the same answer: it returns the values that stand for the results of the standard's run and leaves its store, or, if that run traps or has a null reference among its results, raises and leaves its store. Conversely (C109) a call that ends has such a run. So for modules without deviations and choices a call is cut off at every limit exactly when the standard has no finite run, that is when the program runs forever.", "quantifier": "all validated modules, honest histories, exported functions, arguments and runs of the standard, of any length and call depth", "why_tests_cant": "That the interpreter finishes whatever finishes by the standard is a liveness statement about all programs; a test can only watch single programs finish.", "anchors": ["pywasm/core.py:1701-1721", "pywasm/core.py:1795-1807", "pywasm/core.py:2050-4140", "pywasm/core.py:4164-4177"]}
{"id": "C130", "title": "A module's private state is out of reach of code that was not given it", "statement": "Programs can touch only what they are given. (a) A call of a function can change no table, memory, global, element segment or data bytes outside any part of the store that is closed under reference (the call's function, what its instance knows, the functions its tables and values refer to, and so on), and it returns only references into that part, whether it returns, raises or is cut off, and at every moment while it runs. (b) The same holds for whole histories: new objects, validated modules that import only from the part, and calls of its functions. (c) A validated module without imports gets, when it is instantiated, only objects that are new; calls of its functions change nothing that existed before. (d) The state of such a module cannot be changed afterwards by any program that is not handed one of its objects. For modules that were only decoded and not validated none of this holds: pywasm accepts a module without imports and without sharing anything that, when called, runs an unexported function of another module and changes its private global.", "quantifier": "all closed parts of the store, functions, arguments, validated modules, histories, host functions that keep to the part, and numbers of turns", "why_tests_cant": "Isolation says what no program can do; a test runs single programs and looks at single objects, and the attack on unvalidated modules needs a forged reference of one particular bit pattern.", "anchors": ["pywasm/core.py:278-280", "pywasm/core.py:1604-1664", "pywasm/core.py:1701-1721", "pywasm/core.py:1875-1885", "pywasm/core.py:2746-2754", "pywasm/core.py:4164-4177"]}
{"id": "C131", "title": "Modules that fail validation are refused", "statement": "A module that breaks one of the standard's validation rules (bodies that leave values of the wrong type or name locals that do not exist, initial values of globals and entries of element segments of the wrong type or that are not constant, exports under one name twice) is refused when it is read or instantiated. Pywasm has no validation, and accepts all of these: for each of the rules there is a file that breaks it and is read and instantiated. What instantiation does check of every module, for all stores and imports: as many imports as the module asks for, the type indices of functions exist, tables and memories fit their limits and memories 65536 pages, element segments hold references, mutability is 0 or 1, and exports exist.", "quantifier": "all modules, stores, imports and numbers of turns", "why_tests_cant": "Refusal of every invalid module is a statement about all files; and that a check is made for all modules that get through cannot be seen from files that do.", "anchors": ["pywasm/core.py:1553-1602", "pywasm/core.py:1604-1664", "pywasm/core.py:870-891", "pywasm/core.py:958-969", "pywasm/core.py:1009", "pywasm/core.py:1217", "pywasm/core.py:1453-1493"]}
{"id": "C132", "title": "What a function returns depends only on what it can reach", "statement": "No program can observe what it was not given. (a) Take two stores that have the same objects in a part that is closed under reference, and may differ everywhere else, in contents and in size. A call of a function of the part, with the same arguments that refer only to the part and the same limit of turns, gives the same outcome in both: the same results, the same exception, or the same cut-off; and afterwards the two stores again agree on the part. The host functions of the part must do the same in both stores. (b) A validated module without imports is instantiated; after whatever is then done by code that is handed none of its objects, every call of one of its exported functions returns or raises exactly what it would have right after the instantiation, and leaves its state the same.", "quantifier": "all closed parts of the store, pairs of stores that agree on the part, functions, arguments, numbers of turns, validated modules without imports, and histories of other programs", "why_tests_cant": "Non-interference relates two runs in stores that differ arbitrarily; a test compares single runs in single stores and cannot vary everything the program must not see.", "anchors": ["pywasm/core.py:1701-1721", "pywasm/core.py:1747-1893", "pywasm/core.py:2746-2754", "pywasm/core.py:4164-4177"]}
{"id": "C133", "title": "WASI functions touch only the memory of their caller", "statement": "The WASI functions work on memory 0 of the instance whose code calls them, and a program that uses them is as confined as one that calls no host functions (C130, C132). (a) A call of any WASI function, with any arguments, leaves the stacks and the whole store alone except for the contents of memory 0 of the instance of the running frame. (b) What it does and returns, and the requests it makes to the operating system, depend only on its arguments, the WASI object, the earlier requests and replies, and that memory. (c) A validated program that calls WASI functions and is given a closed part of the store leaves everything outside that part as it was, whether it returns, traps or is cut off, unless some WASI call on the way makes a memory longer than its size says (C118). (d) Under the same condition, in two stores that agree on the part it returns or raises the same, makes the same requests to the operating system in the same order, and leaves the part the same.", "quantifier": "all WASI functions, arguments, operating systems, worlds, closed parts of the store, pairs of stores that agree on the part, validated functions and numbers of turns", "why_tests_cant": "Which memory a host function uses only matters when several instances share a runtime, and non-interference compares two arbitrary stores and every possible operating system; a test fixes one of each.", "anchors": ["pywasm/wasi.py:481-1600", "pywasm/core.py:1738-1766", "pywasm/core.py:1797-1809"]}
{"id": "C134", "title": "Code without a way back always ends", "statement": "A function whose code never branches back (no branch to the label of a loop, none to the label of the function itself) and that calls, directly or through tables, only functions of the same kind, ends: whatever the arguments, the contents of memories, tables and globals and the answers of host functions, and whether the code is valid or not, the call has ended - with results, a trap or another exception - after a number of turns of the main loop that can be read off the code: one for each instruction, one more for each block entered and each function called, the longer branch of each if. So the limit of 2^32 turns cannot cut such a call off when that number is below it, and every higher limit gives the same outcome. For a store in which calls lead from higher to lower ranks and no code branches back, every function has such a number; and where functions do call themselves or each other in circles, the limit on nested calls still makes every call of code that never branches back end within a number of turns that depends on the code alone.", "quantifier": "all machines at rest, functions, arguments, host functions that leave stacks and code alone, and limits", "why_tests_cant": "A test can watch one call end; that every call ends for all arguments and store contents within a number of turns known beforehand is a statement about all runs.", "anchors": ["pywasm/core.py:1701-1736", "pywasm/core.py:1747-1778", "pywasm/core.py:1795-1880"]}
{"id": "C135", "title": "The stacks of a call stay bounded", "statement": "For every set of functions and instances whose code branches only to labels of blocks, loops and ifs around the branch (not to the label of the function itself or further out), valid or not otherwise, there is a number such that in no call of one of these functions, whatever the arguments, the contents of memories, tables and globals and the answers of host functions, and however long it runs, the stacks of frames, labels and operands ever hold more entries than that number. Loops and recursion cannot make the interpreter use more and more memory for its stacks.", "quantifier": "all stores with the given code, functions, arguments, host functions that leave the stacks and the code alone, and numbers of turns", "why_tests_cant": "Programs can run for ever; that the stacks never pass a bound known from the code is a statement about all states of all runs.", "anchors": ["pywasm/core.py:1701-1736", "pywasm/core.py:1747-1778", "pywasm/core.py:1795-1880"]}
{"id": "C136", "title": "A call runs only the code of its call graph and changes only what that code writes", "statement": "Take any set of functions that contains, with each of its functions, whatever that function can call: by call the function its operand names, by call_indirect every function of the store with the type its operand names. If the branches of these functions stay inside them, then every instruction run during a call of one of them is an instruction of a function of the set and is run for the instance that this function belongs to. If no function of the set has an instruction that writes memories (or tables, globals, element segments, data segments) and its host functions do not change them, then the call leaves all memories (tables, globals, element segments, data segments) of the store as they were, at every moment and also when it raises. A call from outside of code that writes none of these parts and that returns leaves the whole machine as it was, so that calling again gives the same result.", "quantifier": "all stores, call-closed sets of functions, arguments, host functions that leave the stacks and the code alone, and numbers of turns", "why_tests_cant": "That some code is never run, and some state never changed, is a statement about all runs; a test sees the instructions of a few.", "anchors": ["pywasm/core.py:1701-1721", "pywasm/core.py:1747-1778", "pywasm/core.py:1795-1880", "pywasm/core.py:1881-2060", "pywasm/core.py:2715-2830"]}
{"id": "C137", "title": "A WASI program asks the system only for what the WASI functions in its call graph ask for", "statement": "Each of the 46 WASI functions makes only requests of its own kinds (a fixed table: fd_write only writes, path_open only opens and inspects what it opened, args_get and proc_exit ask nothing at all, and so on), whatever its arguments and the state of the descriptor table and memory, and also if it raises. Running an exported function makes only requests of the WASI functions in its call graph, where the call graph follows call by its operand and call_indirect by the type it names. So a program that imports path_open but whose code never gets to it opens no file.", "quantifier": "all operating systems, all worlds (descriptor tables, logs, streams, machines) with an empty label stack, all stores and instances, all sets of functions closed under calls, all arguments, any number of turns", "why_tests_cant": "A test sees the requests of one run with one operating system; the claim bounds the requests of every run of the code by a table and the call graph, for whatever the system replies.", "anchors": ["pywasm/wasi.py:503-1044", "pywasm/core.py:1701-1721", "pywasm/core.py:1738-1766", "pywasm/core.py:1867-1880"]}
{"id": "C138", "title": "WASI functions, and the programs that call them, leave alone what they are not about", "statement": "With any arguments, in any state of the descriptor table, the streams and the machine, and also if it raises: a WASI function that hands nothing back through memory (fd_close, fd_sync, path_unlink_file, proc_exit, ...) leaves the whole store as it was; a WASI function other than fd_close, fd_fdstat_set_flags, fd_fdstat_set_rights, fd_renumber and path_open leaves the descriptor table as it was; and only fd_read and fd_write move the in-memory streams. Programs whose call graph has no such function leave these parts as they were too, and a part of the store that the code in the call graph does not write stays as it was, where WASI functions matter for memories only.", "quantifier": "all operating systems, all WASI functions and arguments, all worlds, all stores and instances, all sets of functions closed under calls, any number of turns", "why_tests_cant": "A test can compare the state before and after single calls; that nothing else is ever touched, by any function in any state and in any run of any code, cannot be enumerated.", "anchors": ["pywasm/wasi.py:503-1620", "pywasm/core.py:1701-1721", "pywasm/core.py:1738-1766"]}
{"id": "C139", "title": "Programs with WASI functions end, and keep their stacks bounded, whatever the operating system replies", "statement": "The bounds of C134 and C135 hold with the WASI functions bound, for every operating system: code without a way back ends within the number of turns read off the code; if no function of a store branches back, then one number of turns is enough for every call, with calls to lower ranks or with recursion of any kind (which the limit of 1024 frames ends), and above it the outcome, the requests made and the world left behind do not depend on the limit; and if branches stay inside their functions, one bound holds for the three stacks at all times, also of calls that never end. No reply of the operating system makes such a program run on or pile up stack entries. (A request that itself blocks is not modelled.)", "quantifier": "all stores, instances, functions and arguments; all operating systems and worlds; any number of turns", "why_tests_cant": "Tests run finitely many programs against one operating system; the claim is about all replies of all systems and about calls that never end.", "anchors": ["pywasm/core.py:1701-1721", "pywasm/core.py:1738-1809", "pywasm/wasi.py:503-555"]}
{"id": "C140", "title": "A WASI function that reports success has had its work done", "statement": "When a WASI function whose work is a request to the operating system (fd_sync and fd_datasync flush, fd_filestat_set_size truncates, path_unlink_file unlinks, path_open opens, clock_time_get reads a clock, random_get takes random bytes, and so on for 24 functions) reports success, that request was made during the call, on the file or in the directory that the descriptor argument stands for (and with the given offset, size or clock), and the operating system did not refuse it. In particular no failure of that request is turned into success.", "quantifier": "all operating systems, worlds, functions of the table and arguments", "why_tests_cant": "Tests see a few calls on one operating system that mostly grants requests; whether data reached the disk is not seen by any test that reads the file back.", "anchors": ["pywasm/wasi.py:565-569", "pywasm/wasi.py:630-636", "pywasm/wasi.py:921-931", "pywasm/wasi.py:1008-1019"]}
{"id": "C141", "title": "A WASI function that fails has changed nothing of the program", "statement": "When a WASI function returns an error number or raises, the memory and the rest of the store, the descriptor table and the streams are as they were before the call.", "quantifier": "all operating systems, worlds, WASI functions and arguments", "why_tests_cant": "Tests look at the result of a failing call, and rarely at all the state around it; there are very many ways for a call to fail.", "anchors": ["pywasm/wasi.py:481-1500", "pywasm/wasi.py:650-672"]}
