(* Facts about the reader (Decode.v): every read comes to an end, and everything accepted is in order. *)
From Coq Require Import ZArith List Bool Lia.
From Verif Require Import Py Leb128 Val Opcode Numeric Syntax Store Utf8 Decode SpecLeb SpecMem SpecRun SpecFormat PyFacts
  LebFacts DecodeFacts TreeFacts LocalFacts.
Import ListNotations.
Open Scope Z_scope.

Definition checked (o : opc) (args : list arg) : Prop := o <> O_v128_load32_zero -> o <> O_v128_load64_zero -> aligned o args.
Definition fine_op (o : opc) (args : list arg) : Prop := op_ok o args /\ checked o args.
Definition fine (i : inst) : Prop := inst_ok i /\ everywhere checked i.

Lemma op_ok_ints o l : (accesses_memory o -> Forall (fun z => 0 <= z) l) -> op_ok o (map AInt l).
Proof.
  intros H. split.
  - intros b Hb. apply in_map_iff in Hb as (z & E & _). discriminate.
  - intros off Ha Hn. specialize (H Ha). destruct l as [|x [|y l]]; try discriminate. cbn in Hn. injection Hn as <-.
    inversion H as [|? ? _ H2]; inversion H2; auto.
Qed.
Lemma not_access o : access_bytes o = None -> wasm_load_lane o = None -> wasm_store_lane o = None -> ~ accesses_memory o.
Proof.
  unfold access_bytes, accesses_memory. destruct (wasm_load o) as [[[w t] f]|]; [discriminate|].
  destruct (wasm_store o); [discriminate|]. intros _ -> ->. tauto.
Qed.
Lemma fine_plain o args : access_bytes o = None -> wasm_load_lane o = None -> wasm_store_lane o = None ->
  (forall b, In (ABytes b) args -> bytes b) -> fine_op o args.
Proof.
  intros H1 H2 H3 Hb. split.
  - split; [exact Hb|]. intros off Ha. now apply not_access in Ha.
  - intros _ _ w E. congruence.
Qed.
Lemma no_bytes l : forall b, In (ABytes b) (map AInt l) -> bytes b.
Proof. intros b Hb. apply in_map_iff in Hb as (z & E & _). discriminate. Qed.
Lemma fine_mem o k w a b : access_bytes o = Some w -> w = 2 ^ (k - 1) -> 1 <= k -> 0 <= a -> (a <? k) = true -> 0 <= b ->
  fine_op o [AInt a; AInt b].
Proof.
  intros H -> Hk Ha Hak Hb. split.
  - apply (op_ok_ints o [a; b]). intros _. auto.
  - intros _ _ w' E. rewrite H in E. injection E as <-. exists a, b. split; [reflexivity|]. split; [exact Ha|].
    apply Z.pow_le_mono_r; lia.
Qed.
Lemma fine_mem_lane o a b c : access_bytes o = None -> 0 <= a -> 0 <= b -> 0 <= c -> fine_op o [AInt a; AInt b; AInt c].
Proof.
  intros H Ha Hb Hc. split.
  - apply (op_ok_ints o [a; b; c]). intros _. auto.
  - intros _ _ w E. congruence.
Qed.
Lemma fine_zero o a b : o = O_v128_load32_zero \/ o = O_v128_load64_zero -> 0 <= a -> 0 <= b -> fine_op o [AInt a; AInt b].
Proof.
  intros H Ha Hb. split.
  - apply (op_ok_ints o [a; b]). intros _. auto.
  - intros N1 N2. destruct H; congruence.
Qed.
Definition nonneg (z : Z) : Prop := 0 <= z.
Lemma good_forl n (f : Z -> bool) l : good n false (fun _ => True) (forl (S := list Z) (fun e => assert (f e)) l).
Proof. induction l; cbn; [now apply good_ret|]. eapply good_bind; [apply good_assert|]. intros. exact IHl. Qed.
Lemma good_true n s {A} (Q : A -> Prop) p : good n s Q p -> good n s (fun _ => True) p.
Proof. apply good_weaken. auto. Qed.
Lemma good_args n o : good n false (fine_op o) (rd_args o).
Proof.
  destruct o; cbn [rd_args];
  repeat first
    [ eapply good_bind; [apply good_relax, good_u|intros ? ?]
    | eapply good_bind; [apply good_assert|intros ? ?]
    | eapply good_bind; [apply good_relax, good_ord|intros ? ?]
    | eapply good_bind; [apply good_relax, good_i|intros ? ?]
    | eapply good_bind; [apply good_bytes|intros ? ?]
    | eapply good_bind; [apply good_relax, good_vec, good_u|intros ? ?]
    | eapply good_bind; [apply good_rd_times, good_u|intros ? ?]
    | eapply good_bind; [apply good_forl|intros ? ?]
    | eapply good_bind; [apply good_lift with (Q := fun _ => True); unfold unpack_s; destruct (_ =? _); [exact I|discriminate]|intros ? ?] ];
  apply good_ret;
  first
    [ apply fine_plain; [reflexivity|reflexivity|reflexivity|];
      first [ apply (no_bytes _) | intros ? Hb; repeat (destruct Hb as [Hb|Hb]; try discriminate Hb); try contradiction ];
      injection Hb as <-; assumption
    | apply fine_mem_lane; [reflexivity|assumption|assumption|assumption]
    | apply fine_zero; [first [now left|now right]|assumption|assumption]
    | cbv beta in *; match goal with H : (_ <? ?k) = true |- _ => eapply (fine_mem _ k); [reflexivity|reflexivity|lia|assumption|exact H|assumption] end ].
Qed.

Lemma good_valtype n : good n true (fun _ => True) rd_valtype.
Proof.
  eapply good_strict; [apply good_ord|]. intros b _. apply good_lift. unfold vt_of_code.
  repeat (destruct (_ =? _); [exact I|]). discriminate.
Qed.
Lemma good_bype n : good n true (fun _ => True) rd_bype.
Proof.
  intros r Hr L. destruct r as [|x r]; [discriminate|]. cbn [rd_bype]. pose proof Hr as Hr'. inversion Hr'; subst.
  destruct (x =? 0x40); [cbn; auto|]. destruct (vt_of_code x); [cbn; auto|].
  assert (good n true (fun _ => True) (let! i := rd_i in ret (BT_idx i))) as G.
  { eapply good_strict; [apply good_i|]. intros. now apply good_ret. }
  exact (G (x :: r) Hr L).
Qed.
Lemma u_encode_total z : 0 <= z -> exists e, u_encode z = Ok e.
Proof. intros H. destruct (u_encode_spec z H) as (e & He & _). eauto. Qed.
Lemma good_opc n : good n true (fun _ => True) rd_opc.
Proof.
  eapply good_strict; [apply good_ord|]. intros b _. eapply good_bind with (Q := fun _ => True).
  - destruct (b >=? 0xfc); [|now apply good_ret]. eapply good_bind; [apply good_relax, good_u|]. intros k Hk.
    eapply good_bind with (Q := fun _ => True); [|intros; now apply good_ret].
    apply good_lift. destruct (u_encode_total k Hk) as [e ->]. exact I.
  - intros k _. destruct (opc_of_code k); [now apply good_ret|]. now apply good_fail.
Qed.

Lemma good_until n p f : good n true fine p -> (f <= n)%nat -> good f true (Forall fine) (until f p).
Proof.
  intros Hp. induction f as [|f IH]; intros L; [intros r _ Lr; lia|]. cbn [until].
  eapply good_bind_strict; [eapply good_le; [exact L|exact Hp]|]. intros i Hi.
  destruct (inst_is O_end i); [apply good_ret; constructor|].
  eapply good_bind; [apply good_relax, IH; lia|]. intros l Hl. apply good_ret. now constructor.
Qed.
Lemma good_until_if n p f : good n true fine p -> (f <= n)%nat -> forall s,
  good f true (fun lk => Forall fine (fst lk) /\ Forall fine (snd lk)) (until_if f p s).
Proof.
  intros Hp. induction f as [|f IH]; intros L s; [intros r _ Lr; lia|]. cbn [until_if].
  eapply good_bind_strict; [eapply good_le; [exact L|exact Hp]|]. intros i Hi.
  destruct (inst_is O_end i); [apply good_ret; cbn; auto|].
  destruct (inst_is O_else_fi i); [apply good_relax, IH; lia|].
  eapply good_bind; [apply good_relax, IH; lia|]. intros [l k] [Hl Hk]. apply good_ret. cbn in *. destruct s; cbn; auto.
Qed.
Lemma fine_all l : Forall fine l -> Forall inst_ok l /\ Forall (everywhere checked) l.
Proof. intros H. split; (eapply Forall_impl; [|exact H]); intros i [? ?]; auto. Qed.
Lemma good_inst_f f : good f true fine (rd_inst_f f).
Proof.
  induction f as [|f IH]; [intros r _ L; lia|].
  assert (good (S f) true fine (let! o := rd_opc in rd_tree f o)) as G; [|exact G].
  eapply good_bind_strict; [apply good_opc|]. intros o _. destruct (rd_tree_cases o) as [->|[->|[->|Ep]]].
  - cbn [rd_tree]. eapply good_bind; [apply good_relax, good_bype|]. intros t _.
    eapply good_bind; [apply good_relax, (good_until f); [exact IH|lia]|]. intros l Hl. apply good_ret.
    apply fine_all in Hl as [? ?]. split; now constructor.
  - cbn [rd_tree]. eapply good_bind; [apply good_relax, good_bype|]. intros t _.
    eapply good_bind; [apply good_relax, (good_until f); [exact IH|lia]|]. intros l Hl. apply good_ret.
    apply fine_all in Hl as [? ?]. split; now constructor.
  - cbn [rd_tree]. eapply good_bind; [apply good_relax, good_bype|]. intros t _.
    eapply good_bind; [apply good_relax, (good_until_if f); [exact IH|lia]|]. intros [l k] [Hl Hk]. apply good_ret.
    cbn in *. apply fine_all in Hl as [? ?]. apply fine_all in Hk as [? ?]. split; now constructor.
  - rewrite Ep. eapply good_bind; [apply good_args|]. intros a [H1 H2]. apply good_ret. split; now constructor.
Qed.
Lemma good_inst n : good n true fine rd_inst.
Proof. intros r Hr L. unfold rd_inst. apply good_inst_f; [exact Hr|lia]. Qed.
Lemma good_expr n : good n true (Forall fine) rd_expr.
Proof. intros r Hr L. unfold rd_expr. apply (good_until (S (length r))); [apply good_inst|lia|exact Hr|lia]. Qed.

(* ---- modules ---- *)
Definition anything {A} (a : A) : Prop := True.
Ltac step := first
  [ apply good_ret | apply good_fail; discriminate
  | eapply good_bind; [first [apply good_relax, good_u|apply good_assert|apply good_relax, good_ord|apply good_bytes
      |apply good_relax, good_valtype|apply good_relax, good_expr]|intros ? ?] ].
Lemma utf8_nostop b : match utf8_decode b with Ok _ => True | Err e => e <> EStop end.
Proof.
  assert (forall n b, (length b < n)%nat -> match utf8_decode b with Ok _ => True | Err e => e <> EStop end) as H.
  { clear. induction n as [|n IH]; intros b L; [lia|]. destruct b as [|b0 r]; [exact I|]. cbn [utf8_decode].
    assert (forall r' (f : list Z -> list Z), (length r' < n)%nat ->
      match (let? s := utf8_decode r' in Ok (f s)) with Ok _ => True | Err e => e <> EStop end) as K.
    { intros r' f Lr. specialize (IH r' Lr). destruct (utf8_decode r'); cbn; auto. }
    cbn in L. destruct (b0 <? 0x80); [apply (K r (fun s => b0 :: s)); lia|].
    destruct (in_range 0xc2 0xdf b0).
    { destruct r as [|b1 r]; [discriminate|]. destruct (cont b1); [|discriminate]. cbn in L. apply (K r (fun s => _ :: s)). lia. }
    destruct (in_range 0xe0 0xef b0).
    { destruct r as [|b1 [|b2 r]]; try discriminate. destruct (_ && _); [|discriminate]. cbn in L. apply (K r (fun s => _ :: s)). lia. }
    destruct (in_range 0xf0 0xf4 b0); [|discriminate].
    destruct r as [|b1 [|b2 [|b3 r]]]; try discriminate. destruct (_ && _); [|discriminate]. cbn in L. apply (K r (fun s => _ :: s)). lia. }
  apply (H (S (length b))). lia.
Qed.
Lemma good_name n k : good n false anything (rd_name k).
Proof. unfold rd_name. step. apply good_lift. pose proof (utf8_nostop a). now destruct (utf8_decode a). Qed.
Lemma good_locals n : good n true anything rd_locals.
Proof. eapply good_strict; [apply good_u|]. intros. repeat step. exact I. Qed.
Lemma good_functype n : good n true anything rd_functype.
Proof.
  eapply good_strict; [apply good_ord|]. intros. step.
  eapply good_bind; [apply good_relax, good_vec, good_valtype|intros]. eapply good_bind; [apply good_relax, good_vec, good_valtype|intros].
  now apply good_ret.
Qed.
Definition fine_func (f : funcdesc) : Prop := Forall fine (fd_expr f).
Lemma good_func_type n : good n true fine_func rd_func_type.
Proof. eapply good_strict; [apply good_u|]. intros. step. constructor. Qed.
Lemma good_func_code n : good n true fine_func rd_func_code.
Proof.
  eapply good_strict; [apply good_vec, good_locals|]. intros. eapply good_bind; [apply good_relax, good_expr|]. intros e He.
  now apply good_ret.
Qed.
Definition fine_limits (l : limits) : Prop := 0 <= l_n l.
Lemma good_limits n : good n true fine_limits rd_limits.
Proof.
  eapply good_strict; [apply good_ord|]. intros. step. eapply good_bind with (Q := anything); [|intros; now apply good_ret].
  destruct (negb _); [|now apply good_ret]. eapply good_weaken; [|apply good_relax, good_u]. intros; exact I.
Qed.
Definition fine_table (t : tabletype) : Prop := 0 <= l_n (tt_limits t).
Lemma good_tabletype n : good n true fine_table rd_tabletype.
Proof.
  eapply good_strict; [apply good_valtype|]. intros t _. eapply good_bind; [apply good_relax, good_limits|]. intros l Hl.
  apply good_lift. unfold mk_tabletype. destruct (is_ref t); cbn; [exact Hl|discriminate].
Qed.
Lemma good_globaltype n : good n true anything rd_globaltype.
Proof.
  eapply good_strict; [apply good_valtype|]. intros t _. step. apply good_lift. unfold mk_globaltype.
  destruct (_ || _); cbn; [exact I|discriminate].
Qed.
Definition fine_global (g : globaldesc) : Prop := Forall fine (gd_init g).
Lemma good_global n : good n true fine_global rd_global.
Proof. eapply good_strict; [apply good_globaltype|]. intros. eapply good_bind; [apply good_relax, good_expr|]. intros. now apply good_ret. Qed.
Lemma good_import n : good n true anything rd_import.
Proof.
  eapply good_strict; [apply good_u|]. intros. eapply good_bind; [apply good_name|intros]. step. eapply good_bind; [apply good_name|intros].
  step. eapply good_bind with (Q := anything); [|intros; now apply good_ret].
  repeat (destruct (_ =? _); [first [step; now apply good_ret
    |eapply good_bind; [apply good_relax, good_tabletype|intros; now apply good_ret]
    |eapply good_bind; [apply good_relax, good_limits|intros; now apply good_ret]
    |eapply good_bind; [apply good_relax, good_globaltype|intros; now apply good_ret]]|]).
  now apply good_fail.
Qed.
Lemma good_export n : good n true anything rd_export.
Proof. eapply good_strict; [apply good_u|]. intros. eapply good_bind; [apply good_name|intros]. repeat step. exact I. Qed.
Definition fine_elem (e : elemdesc) : Prop := Forall fine (ed_offset e) /\ Forall (Forall fine) (ed_init e).
Lemma good_funcidx n : good n true (Forall fine) rd_funcidx.
Proof.
  eapply good_strict; [apply good_u|]. intros a Ha. apply good_ret. constructor; [|constructor].
  assert (fine_op O_ref_func [AInt a]) as [? ?]; [|split; now constructor].
  apply fine_plain; [reflexivity|reflexivity|reflexivity|]. apply (no_bytes [a]).
Qed.
Lemma good_elem n : good n true fine_elem rd_elem.
Proof.
  eapply good_strict; [apply good_u|]. intros k _.
  assert (forall m, good m false anything rd_elemkind) as Hk.
  { intros m. unfold rd_elemkind. step. eapply good_weaken; [|apply good_assert]. intros; exact I. }
  repeat (destruct (_ =? _); [
    repeat first [ eapply good_bind; [first [apply good_relax, good_u|apply good_relax, good_expr|apply Hk
      |apply good_relax, good_vec, good_funcidx|apply good_relax, good_vec, good_expr|apply good_relax, good_valtype]|intros] ];
    apply good_ret; split; cbn; auto|]).
  now apply good_fail.
Qed.
Definition fine_data (d : datadesc) : Prop := Forall fine (dd_offset d) /\ bytes (dd_init d).
Lemma good_data n : good n true fine_data rd_data.
Proof.
  eapply good_strict; [apply good_u|]. intros k _.
  repeat (destruct (_ =? _); [repeat step; split; cbn; auto|]). now apply good_fail.
Qed.
Lemma good_on_bytes {A} (Q : A -> Prop) (p : R A) b : bytes b -> (forall n s, s = false -> good n s Q p) ->
  match on_bytes p b with Ok a => Q a | Err e => e <> EStop end.
Proof.
  intros Hb H. specialize (H (S (length b)) false eq_refl b Hb ltac:(lia)). unfold on_bytes. destruct (p b) as [[a|e] r']; cbn; [|exact H].
  apply H.
Qed.
Lemma py_index_in {A} (l : list A) i x : py_index l i = Ok x -> In x l.
Proof.
  unfold py_index. destruct (_ <? 0) eqn:E; [discriminate|]. destruct (nth_error l _) eqn:En; [|discriminate].
  intros H. injection H as <-. eapply nth_error_In; eauto.
Qed.
Lemma upd_in {A} (P : A -> Prop) (l : list A) n x : Forall P l -> P x -> Forall P (upd l n x).
Proof. intros H Hx. revert n. induction H; intros [|n]; cbn; constructor; auto. Qed.
Lemma py_setitem_in {A} (P : A -> Prop) l i (x : A) l' : py_setitem l i x = Ok l' -> Forall P l -> P x -> Forall P l'.
Proof. unfold py_setitem. destruct (_ || _); [discriminate|]. intros E. injection E as <-. intros. now apply upd_in. Qed.
Lemma py_index_nostop {A} (l : list A) i : match py_index l i with Ok _ => True | Err e => e <> EStop end.
Proof. unfold py_index. destruct (_ <? 0); [discriminate|]. now destruct (nth_error _ _). Qed.
Lemma good_codes f : forall n i fs, Forall fine_func fs -> good f false (Forall fine_func) (rd_codes f n i fs).
Proof.
  induction f as [|f IH]; intros n i fs Hfs; [intros r _ L; lia|]. cbn [rd_codes]. destruct (n <=? 0); [now apply good_ret|].
  apply good_relax. eapply good_bind_strict; [apply good_u|]. intros size _. eapply good_bind; [apply good_bytes|]. intros b Hb.
  eapply good_bind with (Q := fine_func).
  { apply good_lift. apply good_on_bytes; [exact Hb|]. intros n' s ->. apply good_relax, good_func_code. }
  intros d Hd. eapply good_bind with (Q := anything).
  { apply good_lift. pose proof (py_index_nostop fs i). now destruct (py_index fs i). }
  intros fd _. eapply good_bind with (Q := Forall fine_func).
  { apply good_lift. destruct (py_setitem fs i _) as [fs'|e] eqn:E.
    - eapply py_setitem_in; [exact E|exact Hfs|exact Hd].
    - unfold py_setitem in E. destruct (_ || _); [|discriminate]. injection E as <-. discriminate. }
  intros fs' Hfs'. apply IH. exact Hfs'.
Qed.
Definition fine_module (md : moddesc) : Prop :=
  Forall fine_func (md_func md) /\ Forall fine_table (md_tabl md) /\ Forall fine_limits (md_mems md) /\
  Forall fine_global (md_glob md) /\ Forall fine_elem (md_elem md) /\ Forall fine_data (md_data md).
Lemma good_section n id md : fine_module md -> good n false fine_module (rd_section id md).
Proof.
  intros H. destruct md as [ty fn tb me gl el da st im ex]. unfold rd_section.
  assert (forall A (p : R A) (Q : A -> Prop) k, (forall n, good n true Q p) ->
    (forall l, Forall Q l -> fine_module (k l)) -> good n false fine_module (let! l := rd_vec p in ret (k l))) as V.
  { intros A p Q k Hp Hk. eapply good_bind; [apply good_relax, good_vec, Hp|]. intros l Hl. apply good_ret. auto. }
  destruct H as (H1 & H2 & H3 & H4 & H5 & H6). cbn in *.
  destruct (id =? 0).
  { unfold rd_custom. eapply good_bind with (Q := anything).
    - step. eapply good_bind; [apply good_name|]. intros nm _ r Hr L. cbn. repeat split; [constructor|lia].
    - intros. apply good_ret. unfold fine_module; cbn; auto 7. }
  destruct (id =? 1); [apply (V _ _ anything); [apply good_functype|intros; unfold fine_module; cbn; auto 7]|].
  destruct (id =? 2); [apply (V _ _ anything); [apply good_import|intros; unfold fine_module; cbn; auto 7]|].
  destruct (id =? 3); [apply (V _ _ fine_func); [apply good_func_type|intros; unfold fine_module; cbn; rewrite Forall_app; auto 8]|].
  destruct (id =? 4); [apply (V _ _ fine_table); [apply good_tabletype|intros; unfold fine_module; cbn; rewrite Forall_app; auto 8]|].
  destruct (id =? 5); [apply (V _ _ fine_limits); [apply good_limits|intros; unfold fine_module; cbn; rewrite Forall_app; auto 8]|].
  destruct (id =? 6); [apply (V _ _ fine_global); [apply good_global|intros; unfold fine_module; cbn; rewrite Forall_app; auto 8]|].
  destruct (id =? 7); [apply (V _ _ anything); [apply good_export|intros; unfold fine_module; cbn; auto 7]|].
  destruct (id =? 8); [step; apply good_ret; unfold fine_module; cbn; auto 7|].
  destruct (id =? 9); [apply (V _ _ fine_elem); [apply good_elem|intros; unfold fine_module; cbn; rewrite Forall_app; auto 8]|].
  destruct (id =? 10).
  { step. eapply good_bind with (Q := Forall fine_func).
    - intros r Hr L. exact (good_codes (S (length r)) a 0 fn H1 r Hr (PeanoNat.Nat.lt_succ_diag_r _)).
    - intros fs Hfs. apply good_ret. unfold fine_module; cbn; auto 7. }
  destruct (id =? 11); [apply (V _ _ fine_data); [apply good_data|intros; unfold fine_module; cbn; rewrite Forall_app; auto 8]|].
  destruct (id =? 12); [step; apply good_ret; unfold fine_module; cbn; auto 7|].
  apply good_ret; unfold fine_module; cbn; auto 7.
Qed.
Lemma good_sections n k : forall md, fine_module md -> good n false fine_module (rd_sections k md).
Proof.
  induction k as [|k IH]; intros md H r Hr L; [cbn; auto|]. cbn [rd_sections]. destruct r as [|id r]; [cbn; auto|].
  inversion Hr; subst.
  assert (good n false fine_module (let! n0 := rd_u in let! b := rd_bytes n0 in assert (len b =? n0) ;;
    let! md0 := lift (on_bytes (rd_section id md) b) in rd_sections k md0)) as G.
  { step. eapply good_bind; [apply good_bytes|]. intros b Hb. step. eapply good_bind with (Q := fine_module).
    - apply good_lift, good_on_bytes; [exact Hb|]. intros n' s ->. now apply good_section.
    - intros md' H'. apply IH. exact H'. }
  specialize (G r H3 ltac:(cbn in L; lia)).
  match type of G with match ?x with _ => _ end => destruct x as [[a|e] r'] end; [|exact G].
  destruct G as (? & ? & Hl). split; [assumption|split; [assumption|cbn in *; lia]].
Qed.
Lemma good_module n : good n false fine_module rd_module.
Proof.
  unfold rd_module. do 4 step. apply good_sections. unfold fine_module, md_empty; cbn. repeat split; constructor.
Qed.
Lemma module_accepted b : bytes b -> match module_from_reader b with Ok md => fine_module md | Err e => e <> EStop end.
Proof. intros H. apply good_on_bytes; [exact H|]. intros n s ->. apply good_module. Qed.

Lemma fine_code l : Forall fine l -> code_ok l.
Proof. intros H. now apply fine_all in H. Qed.
Lemma decoded_ok b md : bytes b -> module_from_reader b = Ok md -> desc_ok md.
Proof.
  intros Hb E. pose proof (module_accepted b Hb) as H. rewrite E in H. destruct H as (H1 & H2 & _ & H4 & H5 & H6).
  repeat split.
  - eapply Forall_impl; [|exact H1]. intros f. apply fine_code.
  - exact H2.
  - eapply Forall_impl; [|exact H4]. intros f. apply fine_code.
  - eapply Forall_impl; [|exact H5]. intros e [? ?]. split; [now apply fine_code|].
    eapply Forall_impl; [|eassumption]. intros f. apply fine_code.
  - eapply Forall_impl; [|exact H6]. intros e [? ?]. split; [now apply fine_code|assumption].
Qed.
Lemma decoded_aligned b md : bytes b -> module_from_reader b = Ok md -> Forall (Forall (everywhere checked)) (expressions md).
Proof.
  intros Hb E. pose proof (module_accepted b Hb) as H. rewrite E in H. destruct H as (H1 & H2 & _ & H4 & H5 & H6).
  assert (forall l, Forall fine l -> Forall (everywhere checked) l) as K by (intros l Hl; now apply fine_all in Hl).
  unfold expressions. rewrite !Forall_app. repeat split.
  - apply Forall_map. eapply Forall_impl; [|exact H1]. intros f. apply K.
  - apply Forall_map. eapply Forall_impl; [|exact H4]. intros f. apply K.
  - apply Forall_map. eapply Forall_impl; [|exact H5]. intros e [? ?]. now apply K.
  - apply Forall_concat, Forall_map. eapply Forall_impl; [|exact H5]. intros e [_ ?]. eapply Forall_impl; [|eassumption]. apply K.
  - apply Forall_map. eapply Forall_impl; [|exact H6]. intros e [? ?]. now apply K.
Qed.
