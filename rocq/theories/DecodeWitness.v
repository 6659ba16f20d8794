(* Modules and instructions used as examples and counterexamples in PropDecode, and the facts about them. *)
From Coq Require Import ZArith List Bool Lia.
From Verif Require Import Py Leb128 Floatops Val Opcode Numeric Syntax Store Basic Machine Utf8 Decode SpecLeb SpecMem SpecRun SpecFormat.
From Verif Require Import PyFacts LebFacts DecodeFacts TreeFacts LocalFacts AcceptFacts ModuleFacts.
Import ListNotations.
Open Scope Z_scope.

Lemma inst_read_back i b rest : enc_inst i b -> rd_inst (b ++ rest) = (Ok i, rest).
Proof. intros H. exact (inst_roundtrip i b H rest). Qed.
Lemma expr_read_back l b rest : enc_expr l b -> rd_expr (b ++ rest) = (Ok l, rest).
Proof. intros H. exact (expr_roundtrip l b H rest). Qed.
Lemma not_v128_const i : (forall a, i <> IOp O_v128_const a) -> inst_is O_v128_const i = false.
Proof.
  intros H. destruct i as [bt l|bt l|bt l k|o args]; try reflexivity. destruct (inst_is O_v128_const (IOp o args)) eqn:E; [|reflexivity].
  exfalso. unfold inst_is in E. change (opc_code o =? opc_code O_v128_const = true) in E.
  apply Z.eqb_eq, opc_code_inj in E. subst o. exact (H args eq_refl).
Qed.
Lemma inst_locally r i r' : rd_inst r = (Ok i, r') ->
  exists c, c <> [] /\ r = c ++ r' /\
    (r' <> [] \/ (forall a, i <> IOp O_v128_const a) -> forall rest, rd_inst (c ++ rest) = (Ok i, rest)).
Proof.
  intros E. destruct (inst_local _ _ _ E) as (c & N & -> & H). exists c. split; [exact N|split; [reflexivity|]].
  intros [Hr|Hi]; apply H; [now left|right; now apply not_v128_const].
Qed.
Lemma loader_terminates b : bytes b ->
  module_from_reader b <> Err EStop /\ fst (rd_expr b) <> Err EStop /\ fst (rd_inst b) <> Err EStop.
Proof.
  intros H. split; [|split].
  - pose proof (module_accepted b H) as M. destruct (module_from_reader b); [discriminate|]. intros E. injection E as ->. now apply M.
  - pose proof (good_expr (S (length b)) b H ltac:(lia)) as M. destruct (rd_expr b) as [[l|e] r]; [discriminate|]. cbn. intros E. injection E as ->. now apply M.
  - pose proof (good_inst (S (length b)) b H ltac:(lia)) as M. destruct (rd_inst b) as [[l|e] r]; [discriminate|]. cbn. intros E. injection E as ->. now apply M.
Qed.

(* a module with one function () -> () with the given code *)
Definition ex_code (code : list Z) : list Z :=
  [0x00; 0x61; 0x73; 0x6d; 0x01; 0x00; 0x00; 0x00; 0x01; 0x04; 0x01; 0x60; 0x00; 0x00; 0x03; 0x02; 0x01; 0x00;
   0x0a; len code + 3; 0x01; len code + 1; 0x00] ++ code.
Definition ex_func (e : expr) : moddesc := mkmd [mkft [] []] [mkfd 0 [] e] [] [] [] [] [] (-1) [] [].

Lemma in_table o n l : existsb (fun x => (opc_code (fst x) =? opc_code o) && (snd x =? n)) l = true -> In (o, n) l.
Proof.
  intros H. apply existsb_exists in H as ([o' n'] & Hin & H). apply andb_true_iff in H as [H1 H2]. apply Z.eqb_eq in H1, H2.
  apply opc_code_inj in H1. cbn in H1, H2. now subst.
Qed.
Fixpoint groupb (b : list Z) : bool :=
  match b with
  | [] => false
  | x :: b' => match b' with [] => (0 <=? x) && (x <? 128) | _ => (128 <=? x) && (x <? 256) && groupb b' end
  end.
Lemma groupb_ok b : groupb b = true -> group b.
Proof.
  induction b as [|x b IH]; [discriminate|]. cbn [groupb]. destruct b as [|y b].
  - intros H. apply group_one. lia.
  - intros H. apply andb_true_iff in H as [H1 H2]. destruct (IH H2) as (pre & l & E & Hp & Hl). exists (x :: pre), l.
    split; [cbn; now rewrite E|]. split; [|exact Hl]. constructor; [lia|exact Hp].
Qed.
Lemma u32_check n b : groupb b && (len b <=? 5) && (base128 b =? n) && (n <? 2 ^ 32) = true -> u32 n b.
Proof. intros H. rewrite !andb_true_iff in H. destruct H as [[[H1 H2] H3] H4]. split; [now apply groupb_ok|]. split; [lia|]. split; lia. Qed.
Lemma sint_check k n b :
  groupb b && (len b <=? (k + 6) / 7) && (base128_signed b =? n) && (- 2 ^ (k - 1) <=? n) && (n <? 2 ^ (k - 1)) = true -> sint k n b.
Proof.
  intros H. rewrite !andb_true_iff in H. destruct H as [[[[H1 H2] H3] H4] H5]. split; [now apply groupb_ok|].
  split; [now apply Z.leb_le|]. split; [now apply Z.eqb_eq|]. split; [now apply Z.leb_le|now apply Z.ltb_lt].
Qed.
Ltac small := apply u32_byte; lia.
Lemma vec_nil {A} (Q : A -> list Z -> Prop) : vec Q [] [0].
Proof. exists [0], []. split; [small|]. split; [constructor|reflexivity]. Qed.
Lemma vec_one {A} (Q : A -> list Z -> Prop) a x : Q a x -> vec Q [a] (1 :: x).
Proof. intros H. exists [1], [x]. split; [small|]. split; [repeat constructor; exact H|]. cbn. now rewrite app_nil_r. Qed.
Lemma vec_two {A} (Q : A -> list Z -> Prop) a b x y : Q a x -> Q b y -> vec Q [a; b] (2 :: x ++ y).
Proof. intros H K. exists [2], [x; y]. split; [small|]. split; [repeat constructor; assumption|]. cbn. now rewrite app_nil_r. Qed.
Lemma sint_byte z : 0 <= z < 64 -> sint 32 z [z].
Proof.
  intros H. split; [apply group_one; lia|]. split; [vm_compute; discriminate|]. split; [|lia].
  unfold base128_signed. assert (base128 [z] = z) as -> by (cbn [base128]; rewrite Z.mod_small; lia).
  cbn [last]. rewrite Z.mod_small by lia. destruct (64 <=? z) eqn:E; [lia|reflexivity].
Qed.

Lemma ex_tree_enc :
  enc_inst (IBlock (BT_val T_i32)
    [IOp O_i32_const [AInt (-3)];
     IIf (BT_idx 300) [IOp O_f64_const [AInt (-1)]; IOp O_br_table [AList [0; 200]; AInt 1]] [IOp O_i32_load16_u [AInt 1; AInt 129]];
     ILoop BT_empty [IOp O_memory_copy []; IOp O_v128_const [ABytes (repeat 9 16)]]])
    ([0x02; 0x7f; 0x41; 0xfd; 0x7f; 0x04; 0xac; 0x02; 0x44] ++ repeat 0xff 8 ++ [0x0e; 0x02; 0x00; 0xc8; 0x01; 0x01; 0x05;
      0x2f; 0x01; 0x81; 0x01; 0x0b; 0x03; 0x40; 0xfc; 0x8a; 0x80; 0x00; 0x00; 0x00; 0xfd; 0x0c] ++ repeat 9 16 ++ [0x0b; 0x0b]).
Proof.
  assert (forall o n, In (o, n) one_byte -> forall x, x = [n] -> enc_opc o x) as O1 by (intros; subst; now constructor).
  assert (u32 200 [0xc8; 0x01]) as U200 by (apply u32_check; reflexivity).
  assert (u32 129 [0x81; 0x01]) as U129 by (apply u32_check; reflexivity).
  assert (u32 10 [0x8a; 0x80; 0x00]) as U10 by (apply u32_check; reflexivity).
  apply (ei_block _ _ [0x7f] ([0x41; 0xfd; 0x7f] ++ (0x04 :: [0xac; 0x02] ++ ((0x44 :: repeat 0xff 8) ++ ([0x0e; 0x02; 0x00; 0xc8; 0x01; 0x01]) ++ []) ++ [0x05] ++
     ([0x2f; 0x01; 0x81; 0x01] ++ []) ++ [0x0b]) ++ (0x03 :: [0x40] ++ ([0xfc; 0x8a; 0x80; 0x00; 0x00; 0x00] ++ ([0xfd; 0x0c] ++ repeat 9 16) ++ []) ++ [0x0b]) ++ [])).
  { now constructor. }
  apply es_cons; [|apply es_cons; [|apply es_cons; [|apply es_nil]]].
  - apply (ei_op O_i32_const SI32 _ [0x41] [0xfd; 0x7f]); [reflexivity|eapply O1; [|reflexivity]; apply in_table; vm_compute; reflexivity|].
    apply ea_i32, sint_check. reflexivity.
  - apply ei_if_else.
    + apply bt_idx; [|lia]. apply sint_check. reflexivity.
    + apply es_cons; [|apply es_cons; [|apply es_nil]].
      * apply (ei_op O_f64_const SF64 _ [0x44]); [reflexivity|eapply O1; [|reflexivity]; apply in_table; vm_compute; reflexivity|].
        apply ea_f64. split; [repeat constructor; discriminate|]. split; [reflexivity|]. split; [vm_compute; reflexivity|]. vm_compute. split; [discriminate|reflexivity].
      * apply (ei_op O_br_table SBrTable _ [0x0e] ([0x02; 0x00; 0xc8; 0x01] ++ [0x01])); [reflexivity|eapply O1; [|reflexivity]; apply in_table; vm_compute; reflexivity|].
        apply ea_br_table; [|small]. apply (vec_two u32 0 200 [0] [0xc8; 0x01]); [small|exact U200].
    + apply es_cons; [|apply es_nil].
      apply (ei_op O_i32_load16_u (SMem 2) _ [0x2f] [0x01; 0x81; 0x01]); [reflexivity|eapply O1; [|reflexivity]; apply in_table; vm_compute; reflexivity|].
      apply ea_mem. exists [1], [0x81; 0x01]. split; [small|]. split; [exact U129|]. split; [lia|reflexivity].
  - apply ei_loop; [constructor|]. apply es_cons; [|apply es_cons; [|apply es_nil]].
    + apply (ei_op O_memory_copy (SZero 2) _ [0xfc; 0x8a; 0x80; 0x00] [0; 0]); [reflexivity| |apply (ea_zero 2)].
      apply (opc_fc _ 10); [apply in_table; vm_compute; reflexivity|exact U10].
    + apply (ei_op O_v128_const SV128 _ [0xfd; 0x0c]); [reflexivity| |].
      * apply (opc_fd _ 12); [apply in_table; vm_compute; reflexivity|small].
      * apply ea_v128; [repeat constructor; discriminate|reflexivity].
Qed.

(* a module with one of everything *)
Definition ex_all : list section := [
  (1, [1; 0x60; 0; 0]);
  (2, [1; 1; 0x65; 1; 0x66; 0x00; 0]);
  (3, [1; 0]);
  (4, [1; 0x70; 0x01; 1; 2]);
  (5, [1; 0x00; 0]);
  (6, [1; 0x7f; 1; 0x41; 5; 0x0b]);
  (7, [1; 2; 0xc3; 0xa9; 0; 1]);
  (8, [1]);
  (9, [1; 0; 0x41; 0; 0x0b; 1; 1]);
  (12, [1]);
  (10, [1; 5; 1; 2; 0x7e; 0x01; 0x0b]);
  (11, [1; 1; 3; 7; 8; 9])].
Definition ex_md : moddesc := mkmd [mkft [] []] [mkfd 0 [(2, T_i64)] [IOp O_nop []]] [mktt T_func (mklim 1 2)] [mklim 0 0]
  [mkgd (mkgt T_i32 1) [IOp O_i32_const [AInt 5]]]
  [mked 0 T_func 0 [IOp O_i32_const [AInt 0]] [[IOp O_ref_func [AInt 1]]]] [mkdd 1 0 [] [7; 8; 9]] 1
  [mkimp [0x65] [0x66] (ImpFunc 0)] [mkexp [0xe9] 0 1].
Definition ex_bytes : list Z := [0x00; 0x61; 0x73; 0x6d; 0x01; 0x00; 0x00; 0x00] ++ concat (map (fun s => fst s :: len (snd s) :: snd s) ex_all).
Lemma ex_plain : Forall (fun s => fst s <> 0) ex_all.
Proof. repeat constructor; discriminate. Qed.
Lemma const_expr_enc z : 0 <= z < 64 -> enc_expr [IOp O_i32_const [AInt z]] [0x41; z; 0x0b].
Proof.
  intros H. exists [0x41; z]. split; [|reflexivity]. rewrite <- (app_nil_r [0x41; z]). apply es_cons; [|apply es_nil].
  apply (ei_op O_i32_const SI32 _ [0x41] [z]); [reflexivity|constructor; apply in_table; vm_compute; reflexivity|]. apply ea_i32, sint_byte, H.
Qed.
Lemma name_enc s : Forall scalar s -> len (utf8 s) < 128 -> enc_name s (len (utf8 s) :: utf8 s).
Proof. intros H L. split; [exact H|]. exists [len (utf8 s)]. split; [apply u32_byte; unfold len in *; lia|reflexivity]. Qed.
Lemma section_enc s : len (snd s) < 128 -> enc_section s (fst s :: len (snd s) :: snd s).
Proof. intros L. exists [len (snd s)]. split; [apply u32_byte; unfold len in *; lia|reflexivity]. Qed.
Ltac some_part := right; eexists; split; [reflexivity|]; apply vec_one.
Lemma ex_enc : enc_module ex_all ex_md ex_bytes.
Proof.
  exists (map (fun s => fst s :: len (snd s) :: snd s) ex_all). split; [|split; [|split; [|reflexivity]]].
  - exists [(1, [1; 0x60; 0; 0])], [(2, [1; 1; 0x65; 1; 0x66; 0x00; 0])], [(3, [1; 0])], [(4, [1; 0x70; 0x01; 1; 2])], [(5, [1; 0x00; 0])],
      [(6, [1; 0x7f; 1; 0x41; 5; 0x0b])], [(7, [1; 2; 0xc3; 0xa9; 0; 1])], [(8, [1])], [(9, [1; 0; 0x41; 0; 0x0b; 1; 1])], [(12, [1])],
      [(10, [1; 5; 1; 2; 0x7e; 0x01; 0x0b])], [(11, [1; 1; 3; 7; 8; 9])].
    split; [reflexivity|]. cbn [md_type md_imps md_func md_tabl md_mems md_glob md_exps md_star md_elem md_data ex_md].
    split; [some_part; exists [0], [0]; split; [apply vec_nil|split; [apply vec_nil|reflexivity]]|].
    split. { some_part. exists [1; 0x65], [1; 0x66], [0; 0]. split; [apply (name_enc [0x65]); [repeat constructor; unfold scalar; lia|reflexivity]|].
      split; [apply (name_enc [0x66]); [repeat constructor; unfold scalar; lia|reflexivity]|]. split; [reflexivity|].
      exists [0]. split; [small|reflexivity]. }
    split; [some_part; small|].
    split. { some_part. exists [0x70], [0x01; 1; 2]. split; [split; [now left|reflexivity]|]. split; [|reflexivity].
      apply (lim_max 1 2 [1] [2]); [small|small|lia]. }
    split; [some_part; apply (lim_min 0 [0]); small|].
    split. { some_part. exists [0x7f; 1], [0x41; 5; 0x0b]. split; [exists [0x7f]; split; [reflexivity|split; [now right|reflexivity]]|].
      split; [apply const_expr_enc; lia|reflexivity]. }
    split. { some_part. exists [2; 0xc3; 0xa9], [1]. split; [apply (name_enc [0xe9]); [repeat constructor; unfold scalar; lia|reflexivity]|].
      split; [cbn; lia|]. split; [small|reflexivity]. }
    split; [right; exists [1]; split; [reflexivity|small]|].
    split. { some_part. apply (el_0 _ _ [0x41; 0; 0x0b] [1; 1] [0]); [small|apply const_expr_enc; lia|]. apply vec_one. exists 1. split; [reflexivity|small]. }
    split; [right; exists 1, [1]; split; [reflexivity|small]|].
    split. { some_part. exists [5], [1; 2; 0x7e], [0x01; 0x0b]. split; [apply vec_one; exists [2], [0x7e]; split; [small|split; reflexivity]|].
      split; [|split; [apply u32_byte; vm_compute; split; [discriminate|reflexivity]|reflexivity]].
      exists [0x01]. split; [|reflexivity]. apply (es_cons _ [] [0x01] []); [|apply es_nil].
      apply (ei_op O_nop SNone _ [0x01] []); [reflexivity|constructor; apply in_table; vm_compute; reflexivity|constructor]. }
    some_part. apply (da_1 _ [3; 7; 8; 9] [1]); [small|]. split; [repeat constructor; discriminate|]. exists [3]. split; [small|reflexivity].
  - repeat constructor; discriminate.
  - apply Forall2_map_r. repeat constructor; apply section_enc; reflexivity.
Qed.

(* ---- too many sections ---- *)
Lemma skip_custom k md rest : rd_sections (S k) md ([0x00; 0x01; 0x00] ++ rest) = rd_sections k md rest.
Proof.
  cbn [app rd_sections]. unfold bind at 1.
  pose proof (reads_u 1 [1] (u32_byte 1 ltac:(lia)) (0 :: rest)) as E1. cbn [app] in E1. rewrite E1.
  unfold bind at 1. pose proof (reads_bytes [0] 1 eq_refl ltac:(lia) rest) as E2. cbn [app] in E2. rewrite E2.
  unfold bind at 1, assert, lift at 1, py_assert. cbn [len length Z.of_nat Pos.of_succ_nat Z.eqb Pos.eqb].
  unfold bind at 1, lift. destruct md. reflexivity.
Qed.
Lemma skip_customs n : forall k md rest, rd_sections (n + k) md (concat (repeat [0x00; 0x01; 0x00] n) ++ rest) = rd_sections k md rest.
Proof.
  induction n as [|n IH]; intros k md rest; [reflexivity|]. cbn [repeat concat Nat.add]. rewrite <- app_assoc, skip_custom. apply IH.
Qed.
Lemma after_32_sections rest :
  module_from_reader ([0x00; 0x61; 0x73; 0x6d; 0x01; 0x00; 0x00; 0x00] ++ concat (repeat [0x00; 0x01; 0x00] 32) ++ rest) = Ok md_empty.
Proof. rewrite module_header. unfold on_bytes. pose proof (skip_customs 32 0 md_empty rest) as H. cbn [Nat.add] in H. now rewrite H. Qed.
Definition one_memory : moddesc := mkmd [] [] [] [mklim 1 0] [] [] [] (-1) [] [].
Lemma filter_customs n (l : list section) : filter (fun s => negb (fst s =? 0)) (repeat (0, [0]) n ++ l) = filter (fun s => negb (fst s =? 0)) l.
Proof. induction n; [reflexivity|]. cbn. assumption. Qed.
Lemma memory_behind n : enc_module (repeat (0, [0]) n ++ [(5, [1; 0; 1])]) one_memory
  ([0x00; 0x61; 0x73; 0x6d; 0x01; 0x00; 0x00; 0x00] ++ concat (repeat [0x00; 0x01; 0x00] n) ++ [5; 3; 1; 0; 1]).
Proof.
  exists (repeat [0x00; 0x01; 0x00] n ++ [[5; 3; 1; 0; 1]]). split; [|split; [|split]].
  - rewrite filter_customs. exists [], [], [], [], [(5, [1; 0; 1])], [], [], [], [], [], [], []. split; [reflexivity|].
    unfold part, start_part, count_part. cbn.
    repeat (split; [now left|]). split; [right; eexists; split; [reflexivity|]; apply vec_one, (lim_min 1 [1]); small|]. repeat (split; [now left|]). now left.
  - apply Forall_app. split; [|constructor; [discriminate|constructor]]. apply Forall_forall. intros s Hs _. apply repeat_spec in Hs as ->.
    exists [], [0], []. split; [|reflexivity]. split; [constructor|]. exists [0]. split; [small|reflexivity].
  - apply Forall2_app.
    + induction n; cbn; constructor; auto. apply (section_enc (0, [0])). reflexivity.
    + constructor; [|constructor]. apply (section_enc (5, [1; 0; 1])). reflexivity.
  - rewrite concat_app. cbn [concat]. now rewrite app_nil_r.
Qed.
Lemma memory_ignored : exists all md b md',
  enc_module all md b /\ length all = 33%nat /\ module_from_reader b = Ok md' /\ md_mems md = [mklim 1 0] /\ md_mems md' = [].
Proof.
  do 3 eexists. exists md_empty. split; [apply (memory_behind 32)|]. split; [reflexivity|]. split; [apply after_32_sections|]. split; reflexivity.
Qed.
Lemma memory_among_customs : exists all md b, enc_module all md b /\ length all = 3%nat /\ module_from_reader b = Ok md /\ md_mems md = [mklim 1 0].
Proof.
  do 3 eexists. split; [apply (memory_behind 2)|]. split; [reflexivity|]. split; [|reflexivity].
  eapply module_roundtrip; [apply (memory_behind 2)|]. cbn. lia.
Qed.

(* ---- alignment ---- *)
Lemma op_read o n s args y rest : In (o, n) after_fd -> 0 <= n < 128 -> shape_of o = Some s -> reads (rd_args o) y args ->
  rd_inst ([0xfd; n] ++ y ++ rest) = (Ok (IOp o args), rest).
Proof.
  intros Hin Hn Hs Hr. unfold rd_inst. rewrite rd_inst_unfold. unfold bind at 1.
  assert (enc_opc o [0xfd; n]) as Ho by (apply (opc_fd _ n [n]); [exact Hin|now apply u32_byte]).
  rewrite (reads_opc o [0xfd; n] Ho). destruct (rd_tree_cases o) as [->|[->|[->|E]]]; try discriminate.
  rewrite E. unfold bind. now rewrite Hr.
Qed.
Lemma any_alignment a off k x y rest : u32 a x -> u32 off y -> 0 <= k < 4 ->
  rd_inst ([0xfd; 0x5c] ++ x ++ y ++ rest) = (Ok (IOp O_v128_load32_zero [AInt a; AInt off]), rest) /\
  rd_inst ([0xfd; 0x5d] ++ x ++ y ++ rest) = (Ok (IOp O_v128_load64_zero [AInt a; AInt off]), rest) /\
  rd_inst ([0xfd; 0x56] ++ x ++ y ++ [k] ++ rest) = (Ok (IOp O_v128_load32_lane [AInt a; AInt off; AInt k]), rest) /\
  rd_inst ([0xfd; 0x5a] ++ x ++ y ++ [k] ++ rest) = (Ok (IOp O_v128_store32_lane [AInt a; AInt off; AInt k]), rest).
Proof.
  intros Hx Hy Hk.
  assert (reads (let! a := rd_u in let! b := rd_u in ret [AInt a; AInt b]) (x ++ y) [AInt a; AInt off]) as R2.
  { eapply reads_bind; [apply reads_u; exact Hx|]. eapply reads_then; [apply reads_u; exact Hy|apply reads_ret]. }
  assert (reads (let! a := rd_u in let! b := rd_u in let! c := rd_u in assert (c <? 4) ;; ret [AInt a; AInt b; AInt c]) (x ++ y ++ [k])
    [AInt a; AInt off; AInt k]) as R3.
  { eapply reads_bind; [apply reads_u; exact Hx|]. eapply reads_bind; [apply reads_u; exact Hy|]. eapply reads_then; [apply reads_u, u32_byte; lia|].
    apply reads_assert; [lia|apply reads_ret]. }
  split; [|split; [|split]].
  - rewrite (app_assoc x). apply (op_read O_v128_load32_zero 0x5c (SMem 4)); [apply in_table; vm_compute; reflexivity|lia|reflexivity|exact R2].
  - rewrite (app_assoc x). apply (op_read O_v128_load64_zero 0x5d (SMem 8)); [apply in_table; vm_compute; reflexivity|lia|reflexivity|exact R2].
  - rewrite !(app_assoc x), (app_assoc (x ++ y)), <- (app_assoc x y). apply (op_read O_v128_load32_lane 0x56 (SMemLane 4)); [apply in_table; vm_compute; reflexivity|lia|reflexivity|exact R3].
  - rewrite !(app_assoc x), (app_assoc (x ++ y)), <- (app_assoc x y). apply (op_read O_v128_store32_lane 0x5a (SMemLane 4)); [apply in_table; vm_compute; reflexivity|lia|reflexivity|exact R3].
Qed.
Lemma everywhere_impl (P Q : opc -> list arg -> Prop) : (forall o a, P o a -> Q o a) -> forall i, everywhere P i -> everywhere Q i.
Proof.
  intros H. fix IH 2. intros i [o args Hp|t l Hl|t l Hl|t l k Hl Hk]; constructor; auto.
  - induction Hl; constructor; auto.
  - induction Hl; constructor; auto.
  - induction Hl; constructor; auto.
  - induction Hk; constructor; auto.
Qed.
Lemma vector_aligned b md : bytes b -> module_from_reader b = Ok md ->
  Forall (Forall (everywhere (fun o args =>
    In o [O_v128_load; O_v128_load8x8_s; O_v128_load8x8_u; O_v128_load16x4_s; O_v128_load16x4_u; O_v128_load32x2_s; O_v128_load32x2_u;
          O_v128_load8_splat; O_v128_load16_splat; O_v128_load32_splat; O_v128_load64_splat; O_v128_store] ->
    exists a off, args = [AInt a; AInt off] /\ 0 <= a /\
      2 ^ a <= match o with O_v128_load | O_v128_store => 16 | O_v128_load8_splat => 1 | O_v128_load16_splat => 2
               | O_v128_load32_splat => 4 | _ => 8 end))) (expressions md).
Proof.
  intros Hb E. eapply Forall_impl; [|exact (decoded_aligned b md Hb E)]. intros e. apply Forall_impl.
  apply everywhere_impl. intros o args H Hin.
  repeat (destruct Hin as [<-|Hin]; [apply H; [discriminate|discriminate|reflexivity]|]). destruct Hin.
Qed.

(* ---- limits ---- *)
Lemma maximum_read n m x y rest : u32 n x -> u32 m y -> m <> 0 -> rd_limits (0x01 :: x ++ y ++ rest) = (Ok (mklim n m), rest).
Proof. intros Hx Hy Hm. pose proof (reads_limits _ _ (lim_max n m x y Hx Hy Hm) rest) as H. cbn [app] in H. now rewrite <- app_assoc in H. Qed.
Lemma maximum_zero n x y rest : u32 n x -> u32 0 y ->
  rd_limits (0x01 :: x ++ y ++ rest) = (Ok (mklim n 0), rest) /\ rd_limits (0x00 :: x ++ rest) = (Ok (mklim n 0), rest).
Proof.
  intros Hx Hy. split; [|exact (reads_limits _ _ (lim_min n x Hx) rest)].
  assert (reads rd_limits (0x01 :: x ++ y) (mklim n 0)) as H.
  { unfold rd_limits. apply reads_ord_bind. eapply reads_bind; [apply reads_u; exact Hx|]. cbn [negb Z.eqb].
    eapply reads_then; [apply reads_u; exact Hy|apply reads_ret]. }
  specialize (H rest). cbn [app] in H. now rewrite <- app_assoc in H.
Qed.
(* (module (table 0 0 funcref) (func (export "g") ref.null func i32.const 1 table.grow 0 drop)) *)
Definition zero_table : list Z := [0x00; 0x61; 0x73; 0x6d; 0x01; 0x00; 0x00; 0x00; 0x01; 0x04; 0x01; 0x60; 0x00; 0x00; 0x03; 0x02; 0x01; 0x00;
  0x04; 0x05; 0x01; 0x70; 0x01; 0x00; 0x00; 0x07; 0x05; 0x01; 0x01; 0x67; 0x00; 0x00;
  0x0a; 0x0c; 0x01; 0x0a; 0x00; 0xd0; 0x70; 0x41; 0x01; 0xfc; 0x0f; 0x00; 0x1a; 0x0b].
Lemma zero_table_grows F host : exists md L m1 h m2 r m3,
  module_from_reader zero_table = Ok md /\ load_module md machine_empty = (Ok L, m1) /\
  instance F host 100 L [] m1 = (Ok h, m2) /\ rt_invocate F host 100 h [103] [] m2 = (Ok r, m3) /\
  map ti_size (s_tabl (k_store m2)) = [0] /\ map ti_size (s_tabl (k_store m3)) = [1].
Proof.
  do 7 eexists. split; [vm_compute; reflexivity|]. split; [vm_compute; reflexivity|]. split; [vm_compute; reflexivity|].
  split; [vm_compute; reflexivity|]. split; vm_compute; reflexivity.
Qed.
