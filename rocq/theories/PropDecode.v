(* Properties of the loader (C05, C22, C37-C41, C72-C75). [SpecFormat] has the binary format; [rd_inst], [rd_expr] and
   [module_from_reader] model Inst.from_reader, Expr.from_reader and ModuleDesc.from_reader; a reader maps the bytes
   left in the stream to a result and the bytes left afterwards. *)
From Coq Require Import ZArith List Bool Lia.
From Verif Require Import Py Leb128 Floatops Val Opcode Numeric Syntax Store Basic Machine Utf8 Decode SpecLeb SpecMem SpecRun SpecFormat.
From Verif Require Import PyFacts LebFacts DecodeFacts TreeFacts LocalFacts AcceptFacts ModuleFacts DecodeWitness.
Import ListNotations.
Open Scope Z_scope.

(* C37: an instruction or expression is read back from any of its encodings, whatever follows. *)
Theorem C37_instruction : forall i b rest, enc_inst i b -> rd_inst (b ++ rest) = (Ok i, rest).
Proof. exact inst_read_back. Qed.
Print Assumptions C37_instruction.
Theorem C37_expression : forall l b rest, enc_expr l b -> rd_expr (b ++ rest) = (Ok l, rest).
Proof. exact expr_read_back. Qed.
Print Assumptions C37_expression.
(* every opcode has an encoding: block (result i32) i32.const -3; if; f64.const; i8x16.shuffle...; else; end; end *)
Example C37_example :
  enc_inst (IBlock (BT_val T_i32)
    [IOp O_i32_const [AInt (-3)];
     IIf (BT_idx 300) [IOp O_f64_const [AInt (-1)]; IOp O_br_table [AList [0; 200]; AInt 1]] [IOp O_i32_load16_u [AInt 1; AInt 129]];
     ILoop BT_empty [IOp O_memory_copy []; IOp O_v128_const [ABytes (repeat 9 16)]]])
    ([0x02; 0x7f; 0x41; 0xfd; 0x7f; 0x04; 0xac; 0x02; 0x44] ++ repeat 0xff 8 ++ [0x0e; 0x02; 0x00; 0xc8; 0x01; 0x01; 0x05;
      0x2f; 0x01; 0x81; 0x01; 0x0b; 0x03; 0x40; 0xfc; 0x8a; 0x80; 0x00; 0x00; 0x00; 0xfd; 0x0c] ++ repeat 9 16 ++ [0x0b; 0x0b]).
Proof. exact ex_tree_enc. Qed.

(* C38: a module description is read back from any of its encodings (without custom sections: with them, see C39).
   A description has 0 for "no maximum", so a declared maximum of 0 has no description (C22). *)
Theorem C38_module : forall all md b, enc_module all md b -> Forall (fun s => fst s <> 0) all -> module_from_reader b = Ok md.
Proof. exact module_roundtrip_plain. Qed.
Print Assumptions C38_module.
(* type () -> (); import "e" "f"; one function; a table, a memory, a global, an export "m", a start function, an element
   and a data segment *)
Example C38_example : enc_module ex_all ex_md ex_bytes /\ Forall (fun s => fst s <> 0) ex_all /\ module_from_reader ex_bytes = Ok ex_md.
Proof. split; [exact ex_enc|]. split; [exact ex_plain|]. apply (C38_module ex_all); [exact ex_enc|exact ex_plain]. Qed.

(* C39 is false: 32 sections are read. After 32 empty custom sections everything is ignored, even bytes that make no sense. *)
Theorem C39_no_section_ignored_refuted : forall rest,
  module_from_reader ([0x00; 0x61; 0x73; 0x6d; 0x01; 0x00; 0x00; 0x00] ++ concat (repeat [0x00; 0x01; 0x00] 32) ++ rest) = Ok md_empty.
Proof. exact after_32_sections. Qed.
Print Assumptions C39_no_section_ignored_refuted.
Theorem C39_module_refuted : exists all md b md',
  enc_module all md b /\ length all = 33%nat /\ module_from_reader b = Ok md' /\ md_mems md = [mklim 1 0] /\ md_mems md' = [].
Proof. exact memory_ignored. Qed.
Print Assumptions C39_module_refuted.
(* Up to 32 sections, custom ones anywhere among them, all are taken into account. *)
Theorem C39_up_to_32_sections_partial : forall all md b, enc_module all md b -> (length all <= 32)%nat -> module_from_reader b = Ok md.
Proof. exact module_roundtrip. Qed.
Print Assumptions C39_up_to_32_sections_partial.
Example C39_example : exists all md b, enc_module all md b /\ length all = 3%nat /\ module_from_reader b = Ok md /\ md_mems md = [mklim 1 0].
Proof. exact memory_among_customs. Qed.

(* C40: what an expression read consumed is a nonempty prefix that reads the same whatever follows. *)
Theorem C40_expression : forall r l r', rd_expr r = (Ok l, r') ->
  exists c, c <> [] /\ r = c ++ r' /\ forall rest, rd_expr (c ++ rest) = (Ok l, rest).
Proof. exact expr_local. Qed.
Print Assumptions C40_expression.
(* For a single instruction this is false: v128.const takes what is left of the stream if that is less than 16 bytes. *)
Theorem C40_instruction_refuted :
  rd_inst [0xfd; 0x0c; 1; 2] = (Ok (IOp O_v128_const [ABytes [1; 2]]), []) /\
  rd_inst ([0xfd; 0x0c; 1; 2] ++ [3]) = (Ok (IOp O_v128_const [ABytes [1; 2; 3]]), []).
Proof. split; vm_compute; reflexivity. Qed.
Print Assumptions C40_instruction_refuted.
(* Every other instruction, and every instruction with something left after it. *)
Theorem C40_instruction_partial : forall r i r', rd_inst r = (Ok i, r') ->
  exists c, c <> [] /\ r = c ++ r' /\
    (r' <> [] \/ (forall a, i <> IOp O_v128_const a) -> forall rest, rd_inst (c ++ rest) = (Ok i, rest)).
Proof. exact inst_locally. Qed.
Print Assumptions C40_instruction_partial.
(* The loops of the reader are modelled with as many turns as the stream has bytes plus one and raise [EStop] when these
   are used up. That never happens: no stream makes the loader run forever. *)
Theorem C40_loader_terminates : forall b, bytes b ->
  module_from_reader b <> Err EStop /\ fst (rd_expr b) <> Err EStop /\ fst (rd_inst b) <> Err EStop.
Proof. exact loader_terminates. Qed.
Print Assumptions C40_loader_terminates.
Example C40_example : bytes [0x41; 0x05; 0x1a; 0x0b; 0xff] /\
  rd_expr [0x41; 0x05; 0x1a; 0x0b; 0xff] = (Ok [IOp O_i32_const [AInt 5]; IOp O_drop []], [0xff]) /\
  rd_inst [0x41; 0x05; 0x1a; 0x0b; 0xff] = (Ok (IOp O_i32_const [AInt 5]), [0x1a; 0x0b; 0xff]).
Proof. split; [repeat constructor; discriminate|]. split; vm_compute; reflexivity. Qed.

(* C41: in an accepted module every load and store of one value, anywhere in its code, has an alignment exponent [a] with
   2^a at most the bytes accessed; v128.load32_zero and v128.load64_zero are not checked (C73). *)
Theorem C41_alignment : forall b md, bytes b -> module_from_reader b = Ok md ->
  Forall (Forall (everywhere (fun o args => o <> O_v128_load32_zero -> o <> O_v128_load64_zero -> aligned o args))) (expressions md).
Proof. exact decoded_aligned. Qed.
Print Assumptions C41_alignment.
Example C41_example :
  module_from_reader (ex_code [0x41; 0x00; 0x28; 0x02; 0x08; 0x1a; 0x0b]) =
    Ok (ex_func [IOp O_i32_const [AInt 0]; IOp O_i32_load [AInt 2; AInt 8]; IOp O_drop []]) /\
  module_from_reader (ex_code [0x41; 0x00; 0x28; 0x03; 0x08; 0x1a; 0x0b]) = Err EAssert /\
  bytes (ex_code [0x41; 0x00; 0x28; 0x02; 0x08; 0x1a; 0x0b]) /\ access_bytes O_i32_load = Some 4.
Proof. split; [vm_compute; reflexivity|]. split; [vm_compute; reflexivity|]. split; [|reflexivity]. repeat constructor; discriminate. Qed.

(* C73 is false: two kinds of vector access are accepted with any alignment. *)
Theorem C73_vector_alignment_refuted : forall a off k x y rest, u32 a x -> u32 off y -> 0 <= k < 4 ->
  rd_inst ([0xfd; 0x5c] ++ x ++ y ++ rest) = (Ok (IOp O_v128_load32_zero [AInt a; AInt off]), rest) /\
  rd_inst ([0xfd; 0x5d] ++ x ++ y ++ rest) = (Ok (IOp O_v128_load64_zero [AInt a; AInt off]), rest) /\
  rd_inst ([0xfd; 0x56] ++ x ++ y ++ [k] ++ rest) = (Ok (IOp O_v128_load32_lane [AInt a; AInt off; AInt k]), rest) /\
  rd_inst ([0xfd; 0x5a] ++ x ++ y ++ [k] ++ rest) = (Ok (IOp O_v128_store32_lane [AInt a; AInt off; AInt k]), rest).
Proof. exact any_alignment. Qed.
Print Assumptions C73_vector_alignment_refuted.
Theorem C73_vector_alignment_partial : forall b md, bytes b -> module_from_reader b = Ok md ->
  Forall (Forall (everywhere (fun o args =>
    In o [O_v128_load; O_v128_load8x8_s; O_v128_load8x8_u; O_v128_load16x4_s; O_v128_load16x4_u; O_v128_load32x2_s; O_v128_load32x2_u;
          O_v128_load8_splat; O_v128_load16_splat; O_v128_load32_splat; O_v128_load64_splat; O_v128_store] ->
    exists a off, args = [AInt a; AInt off] /\ 0 <= a /\
      2 ^ a <= match o with O_v128_load | O_v128_store => 16 | O_v128_load8_splat => 1 | O_v128_load16_splat => 2
               | O_v128_load32_splat => 4 | _ => 8 end))) (expressions md).
Proof. exact vector_aligned. Qed.
Print Assumptions C73_vector_alignment_partial.
Example C73_example : u32 200 [0xc8; 0x01] /\ u32 0 [0] /\
  module_from_reader (ex_code [0x41; 0x00; 0xfd; 0x00; 0x04; 0x00; 0x1a; 0x0b]) =
    Ok (ex_func [IOp O_i32_const [AInt 0]; IOp O_v128_load [AInt 4; AInt 0]; IOp O_drop []]) /\
  module_from_reader (ex_code [0x41; 0x00; 0xfd; 0x00; 0x05; 0x00; 0x1a; 0x0b]) = Err EAssert.
Proof. split; [apply u32_check; reflexivity|]. split; [apply u32_byte; lia|]. split; vm_compute; reflexivity. Qed.

(* C05 is false: a memory may be declared with a minimum of any size, in an encoding of any length. (The bound of 100
   bytes keeps the length of the section in one byte.) *)
Theorem C05_numbers_in_range_refuted : forall e, group e -> len e <= 100 ->
  module_from_reader ([0x00; 0x61; 0x73; 0x6d; 0x01; 0x00; 0x00; 0x00] ++ [0x05; len e + 2; 0x01; 0x00] ++ e) =
    Ok (mkmd [] [] [] [mklim (base128 e) 0] [] [] [] (-1) [] []).
Proof. exact memory_any_number. Qed.
Print Assumptions C05_numbers_in_range_refuted.
(* What holds: a number read is what the bytes consumed denote, and those end where a LEB128 number ends. *)
Theorem C05_numbers_partial : forall r n r', bytes r -> rd_u r = (Ok n, r') ->
  exists c, group c /\ base128 c = n /\ r = c ++ r'.
Proof. exact rd_u_group. Qed.
Print Assumptions C05_numbers_partial.
Example C05_example : group (repeat 0xff 5 ++ [0x01]) /\ base128 (repeat 0xff 5 ++ [0x01]) = 2 ^ 36 - 1 /\
  group (repeat 0x80 9 ++ [0x00]) /\ base128 (repeat 0x80 9 ++ [0x00]) = 0 /\ rd_u [0xe5; 0x8e; 0x26; 0x00] = (Ok 624485, [0x00]).
Proof. split; [apply groupb_ok; reflexivity|]. split; [reflexivity|]. split; [apply groupb_ok; reflexivity|]. split; vm_compute; reflexivity. Qed.

(* C22 is false: a declared maximum of 0 is read as no maximum, *)
Theorem C22_maximum_zero_refuted : forall n x y rest, u32 n x -> u32 0 y ->
  rd_limits (0x01 :: x ++ y ++ rest) = (Ok (mklim n 0), rest) /\ rd_limits (0x00 :: x ++ rest) = (Ok (mklim n 0), rest).
Proof. exact maximum_zero. Qed.
Print Assumptions C22_maximum_zero_refuted.
(* and so the table of this module, declared as [table 0 0 funcref], has one entry after its function has run. *)
Theorem C22_table_grows_refuted : forall F host, exists md L m1 h m2 r m3,
  module_from_reader zero_table = Ok md /\ load_module md machine_empty = (Ok L, m1) /\
  instance F host 100 L [] m1 = (Ok h, m2) /\ rt_invocate F host 100 h [103] [] m2 = (Ok r, m3) /\
  map ti_size (s_tabl (k_store m2)) = [0] /\ map ti_size (s_tabl (k_store m3)) = [1].
Proof. exact zero_table_grows. Qed.
Print Assumptions C22_table_grows_refuted.
(* Any other declared maximum is read as it is; that it is kept is C20, C21 and C24. *)
Theorem C22_maximum_partial : forall n m x y rest, u32 n x -> u32 m y -> m <> 0 ->
  rd_limits (0x01 :: x ++ y ++ rest) = (Ok (mklim n m), rest).
Proof. exact maximum_read. Qed.
Print Assumptions C22_maximum_partial.
Example C22_example : u32 3 [3] /\ u32 0 [0] /\ rd_limits [0x01; 3; 0] = (Ok (mklim 3 0), []) /\ rd_limits [0x01; 3; 5] = (Ok (mklim 3 5), []).
Proof. split; [apply u32_byte; lia|]. split; [apply u32_byte; lia|]. split; reflexivity. Qed.

(* C72: whatever the loader accepts is a module in order, so the invariants over sessions (C21, C25, C26, C36, C72) hold for
   every stream of bytes loaded. *)
Theorem C72_loaded_in_order : forall b md, bytes b -> module_from_reader b = Ok md -> desc_ok md.
Proof. exact decoded_ok. Qed.
Print Assumptions C72_loaded_in_order.
Example C72_loaded_example : bytes ex_bytes /\ module_from_reader ex_bytes = Ok ex_md /\ desc_ok ex_md.
Proof.
  assert (bytes ex_bytes) by (repeat constructor; discriminate).
  assert (module_from_reader ex_bytes = Ok ex_md) by (vm_compute; reflexivity). eauto using C72_loaded_in_order.
Qed.

(* C74 is false: a data segment or function body may claim more bytes than its section has. *)
Theorem C74_lengths_refuted :
  module_from_reader ([0x00; 0x61; 0x73; 0x6d; 0x01; 0x00; 0x00; 0x00] ++ [0x0b; 0x05; 0x01; 0x01; 0x64; 0x07; 0x08]) =
    Ok (mkmd [] [] [] [] [] [] [mkdd 1 0 [] [7; 8]] (-1) [] []) /\
  module_from_reader ([0x00; 0x61; 0x73; 0x6d; 0x01; 0x00; 0x00; 0x00] ++ [0x01; 0x04; 0x01; 0x60; 0x00; 0x00; 0x03; 0x02; 0x01; 0x00;
                        0x0a; 0x04; 0x01; 0x64; 0x00; 0x0b]) =
    Ok (mkmd [mkft [] []] [mkfd 0 [] []] [] [] [] [] [] (-1) [] []).
Proof. split; vm_compute; reflexivity. Qed.
Print Assumptions C74_lengths_refuted.
(* Sections themselves are complete: an accepted stream is the header and then sections, each an id, the length of its
   content and that content, to the end of the stream or for 32 sections. *)
Theorem C74_section_lengths_partial : forall b md, bytes b -> module_from_reader b = Ok md ->
  exists ss bs rest, b = [0x00; 0x61; 0x73; 0x6d; 0x01; 0x00; 0x00; 0x00] ++ concat bs ++ rest /\
    Forall2 (fun s x => exists c, group c /\ base128 c = len (snd s) /\ x = fst s :: c ++ snd s) ss bs /\
    (rest = [] \/ length ss = 32%nat).
Proof. exact module_framed. Qed.
Print Assumptions C74_section_lengths_partial.

(* C75 is false: a module with a function and no code for it is accepted; the function has an empty body. *)
Theorem C75_code_for_every_function_refuted :
  module_from_reader ([0x00; 0x61; 0x73; 0x6d; 0x01; 0x00; 0x00; 0x00] ++ [0x01; 0x05; 0x01; 0x60; 0x00; 0x01; 0x7f; 0x03; 0x02; 0x01; 0x00]) =
    Ok (mkmd [mkft [] [T_i32]] [mkfd 0 [] []] [] [] [] [] [] (-1) [] []).
Proof. vm_compute; reflexivity. Qed.
Print Assumptions C75_code_for_every_function_refuted.
(* The other way around is checked: an accepted code section has no more entries than there are functions. *)
Theorem C75_code_section_partial : forall md r md' r', bytes r -> rd_section 10 md r = (Ok md', r') ->
  exists c rest, r = c ++ rest /\ group c /\ base128 c <= len (md_func md).
Proof. exact code_section_count. Qed.
Print Assumptions C75_code_section_partial.
Example C75_example :
  rd_section 10 (mkmd [] [mkfd 0 [] []] [] [] [] [] [] (-1) [] []) [0x01; 0x02; 0x00; 0x0b] =
    (Ok (mkmd [] [mkfd 0 [] []] [] [] [] [] [] (-1) [] []), []) /\
  fst (rd_section 10 (mkmd [] [mkfd 0 [] []] [] [] [] [] [] (-1) [] []) [0x02; 0x02; 0x00; 0x0b; 0x02; 0x00; 0x0b]) = Err EIndex.
Proof. split; vm_compute; reflexivity. Qed.
