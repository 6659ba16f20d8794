(* C102: what the loader accepts. *)
From Coq Require Import ZArith List Bool Lia.
From Verif Require Import Py Val Opcode Numeric Syntax Store Decode SpecLeb SpecMem SpecFormat SpecLax LaxFacts.
Import ListNotations.
Open Scope Z_scope.

(* C102. The binary format is refused unless it is as SpecLax.v says: the standard's format but for the relaxations named
   there. Together with C38 this encloses what the loader accepts. *)
Theorem C102_accepts_only_partial : forall b md, bytes b -> module_from_reader b = Ok md -> lax_module md b.
Proof. exact accepted. Qed.
Print Assumptions C102_accepts_only_partial.
(* a type, a memory and an export; the wrong tag 0x5f of a function type is refused *)
Example C102_example :
  (exists md, module_from_reader [0; 0x61; 0x73; 0x6d; 1; 0; 0; 0; 1; 5; 1; 0x60; 1; 0x7f; 0; 5; 3; 1; 0; 1; 7; 5; 1; 1; 0x6d; 2; 0] = Ok md /\
    md_exps md = [mkexp [0x6d] 2 0]) /\
  module_from_reader [0; 0x61; 0x73; 0x6d; 1; 0; 0; 0; 1; 5; 1; 0x5f; 1; 0x7f; 0] = Err EAssert.
Proof. split; [eexists; split|]; vm_compute; reflexivity. Qed.

(* The standard has only the bytes 0 and 1 before the numbers of a limit; every other byte is accepted. *)
Theorem C102_limits_refuted : forall k n m x y rest, byte k -> 1 < k -> u32 n x -> u32 m y ->
  rd_limits (k :: x ++ y ++ rest) = (Ok (mklim n m), rest) /\ forall l b, ~ enc_limits l (k :: b).
Proof. exact limits_any. Qed.
Print Assumptions C102_limits_refuted.
Example C102_limits_example : u32 3 [3] /\ u32 7 [0x87; 0].
Proof. split; (split; [|split; [cbn; lia|split; [reflexivity|lia]]]); [exists [], 3|exists [0x87], 0]; repeat split; repeat constructor; lia. Qed.
(* The standard has sections 0 to 12; others are skipped. *)
Theorem C102_sections_refuted : forall id p c, byte id -> 12 < id -> bytes p -> u32 (len p) c ->
  module_from_reader ([0; 0x61; 0x73; 0x6d; 1; 0; 0; 0] ++ id :: c ++ p) = Ok no_parts /\
  forall all md, ~ enc_module all md ([0; 0x61; 0x73; 0x6d; 1; 0; 0; 0] ++ id :: c ++ p).
Proof. exact section_any. Qed.
Print Assumptions C102_sections_refuted.
(* The standard has the sections in a fixed order, each at most once; any order and number is accepted: here a memory before a
   table, and two memory sections. *)
Theorem C102_order_refuted :
  (exists md, module_from_reader [0; 0x61; 0x73; 0x6d; 1; 0; 0; 0; 5; 3; 1; 0; 1; 4; 4; 1; 0x70; 0; 1] = Ok md /\
    md_mems md = [mklim 1 0] /\ md_tabl md = [mktt T_func (mklim 1 0)] /\
    forall all md, ~ enc_module all md [0; 0x61; 0x73; 0x6d; 1; 0; 0; 0; 5; 3; 1; 0; 1; 4; 4; 1; 0x70; 0; 1]) /\
  (exists md, module_from_reader [0; 0x61; 0x73; 0x6d; 1; 0; 0; 0; 5; 3; 1; 0; 1; 5; 3; 1; 0; 2] = Ok md /\
    md_mems md = [mklim 1 0; mklim 2 0] /\
    forall all md, ~ enc_module all md [0; 0x61; 0x73; 0x6d; 1; 0; 0; 0; 5; 3; 1; 0; 1; 5; 3; 1; 0; 2]).
Proof. exact order_any. Qed.
Print Assumptions C102_order_refuted.
(* The standard has two types for ref.null, the byte 0 after memory.size and memory.grow, and value types after a typed
   select; any byte and any numbers are accepted. *)
Theorem C102_immediates_refuted :
  (forall b rest, byte b -> rd_inst (0xd0 :: b :: rest) = (Ok (IOp O_ref_null [AInt b]), rest)) /\
  (forall b x, b <> 0x70 -> b <> 0x6f -> ~ exists i, enc_inst i (0xd0 :: b :: x)) /\
  (forall b rest, byte b -> rd_inst (0x3f :: b :: rest) = (Ok (IOp O_memory_size [AInt b]), rest)) /\
  (forall b rest, byte b -> rd_inst (0x40 :: b :: rest) = (Ok (IOp O_memory_grow [AInt b]), rest)) /\
  (forall b x, b <> 0 -> ~ exists i, enc_inst i (0x3f :: b :: x) \/ enc_inst i (0x40 :: b :: x)) /\
  (forall n rest, 0 <= n < 128 -> rd_inst (0x1c :: 1 :: n :: rest) = (Ok (IOp O_select_type [AList [n]]), rest)) /\
  (forall n x, n < 0x6f -> ~ exists i, enc_inst i (0x1c :: 1 :: n :: x)).
Proof. exact immediates_any. Qed.
Print Assumptions C102_immediates_refuted.
(* The standard has no negative type index for a block; the one-byte numbers from -63 to -18 are accepted as one. *)
Theorem C102_block_type_refuted : forall n rest, 64 < n < 0x6f ->
  rd_bype (n :: rest) = (Ok (BT_idx (n - 128)), rest) /\ forall t x, ~ enc_bype t (n :: x).
Proof. exact block_type_any. Qed.
Print Assumptions C102_block_type_refuted.
