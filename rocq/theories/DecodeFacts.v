(* Facts about the reader (Decode.v): what it makes of well-formed encodings. *)
From Coq Require Import ZArith List Bool Lia.
From Verif Require Import Py Leb128 Val Opcode Numeric Syntax Store Utf8 Decode SpecLeb SpecMem SpecFormat PyFacts LebFacts.
Import ListNotations.
Open Scope Z_scope.

(* [p] turns exactly the bytes [b] into [a], whatever follows *)
Definition reads {A} (p : R A) (b : list Z) (a : A) : Prop := forall rest, p (b ++ rest) = (Ok a, rest).

Lemma reads_ret {A} (a : A) : reads (ret a) [] a.
Proof. intro. reflexivity. Qed.
Lemma reads_bind {A B} (p : R A) (f : A -> R B) x y a c : reads p x a -> reads (f a) y c -> reads (bind p f) (x ++ y) c.
Proof. intros H1 H2 rest. unfold bind. rewrite <- app_assoc, H1. apply H2. Qed.
Lemma reads_then {A B} (p : R A) (f : A -> R B) x a c : reads p x a -> reads (f a) [] c -> reads (bind p f) x c.
Proof. intros H1 H2. rewrite <- (app_nil_r x). eapply reads_bind; eauto. Qed.
Lemma reads_lift {A B} (v : res A) a (f : A -> R B) y c : v = Ok a -> reads (f a) y c -> reads (bind (lift v) f) y c.
Proof. intros -> H rest. apply H. Qed.
Lemma reads_assert {B} b (f : unit -> R B) y c : b = true -> reads (f tt) y c -> reads (bind (assert b) f) y c.
Proof. intros -> H rest. apply H. Qed.
Lemma reads_ord b : reads rd_ord [b] b.
Proof. intro. reflexivity. Qed.
Lemma reads_ord_bind {B} (f : Z -> R B) b y c : reads (f b) y c -> reads (bind rd_ord f) (b :: y) c.
Proof. intros H rest. apply H. Qed.
Lemma reads_u n b : u32 n b -> reads rd_u b n.
Proof. intros (Hg & _ & Hn & _) rest. unfold rd_u. rewrite u_reader_group by exact Hg. now rewrite Hn. Qed.
Lemma reads_i k n b : sint k n b -> reads rd_i b n.
Proof. intros (Hg & _ & Hn & _) rest. unfold rd_i. rewrite i_reader_group by exact Hg. now rewrite Hn. Qed.
Lemma u32_byte n : 0 <= n < 128 -> u32 n [n].
Proof.
  intros H. split; [|split; [|split]].
  - now apply group_one.
  - cbn; lia.
  - cbn. rewrite Z.mod_small by lia. lia.
  - lia.
Qed.
Lemma u32_nonneg n b : u32 n b -> 0 <= n.
Proof. intros (_ & _ & <- & _). apply base128_bound. Qed.
Lemma u32_nonnil n b : u32 n b -> b <> [].
Proof. intros (H & _). now apply group_nonnil. Qed.
Lemma reads_bytes b n : len b = n -> n < 2 ^ 63 -> reads (rd_bytes n) b b.
Proof.
  intros H L rest. unfold rd_bytes. destruct (n >=? 2 ^ 63) eqn:E; [lia|].
  replace (Z.min n (len (b ++ rest))) with (len b) by (unfold len in *; rewrite app_length; lia).
  unfold len. rewrite Nat2Z.id, firstn_app, skipn_app, firstn_all, skipn_all, PeanoNat.Nat.sub_diag. cbn. now rewrite app_nil_r.
Qed.

(* ---- vectors ---- *)
Lemma Forall2_weaken {A B} (P Q : A -> B -> Prop) l k : (forall a b, P a b -> Q a b) -> Forall2 P l k -> Forall2 Q l k.
Proof. intros H. induction 1; constructor; auto. Qed.
Lemma times_reads {A} (p : R A) l : forall bs f rest, Forall2 (fun a b => reads p b a) l bs -> (length l < f)%nat ->
  times f (len l) p (concat bs ++ rest) = (Ok l, rest).
Proof.
  induction l as [|a l IH]; intros bs f rest H L; inversion H; subst; destruct f as [|f]; try lia.
  - reflexivity.
  - cbn [times concat]. destruct (len (a :: l) <=? 0) eqn:E; [unfold len in E; cbn [length] in E; lia|].
    unfold bind at 1. rewrite <- app_assoc, (H2 (concat l' ++ rest)).
    unfold bind at 1. replace (len (a :: l) - 1) with (len l) by (unfold len; cbn [length]; lia).
    rewrite (IH l' f rest H4) by (cbn in L; lia). reflexivity.
Qed.
Lemma concat_len {A B} (Q : A -> list B -> Prop) l bs : Forall2 Q l bs -> (forall a b, Q a b -> b <> []) ->
  (length l <= length (concat bs))%nat.
Proof.
  intros H N. induction H as [|a b l bs Hq _ IH]; cbn; [lia|]. rewrite app_length.
  specialize (N a b Hq). destruct b; [congruence|]. cbn. lia.
Qed.
Lemma reads_times {A} (Q : A -> list Z -> Prop) (p : R A) l bs :
  (forall a b, Q a b -> b <> []) -> (forall a b, Q a b -> reads p b a) -> Forall2 Q l bs ->
  reads (rd_times (len l) p) (concat bs) l.
Proof.
  intros N HQ H rest. unfold rd_times. apply times_reads.
  - eapply Forall2_weaken; [|exact H]. cbn. auto.
  - pose proof (concat_len Q l bs H N). rewrite app_length. lia.
Qed.
Lemma reads_vec {A} (Q : A -> list Z -> Prop) (p : R A) l b :
  (forall a b, Q a b -> b <> []) -> (forall a b, Q a b -> reads p b a) -> vec Q l b -> reads (rd_vec p) b l.
Proof.
  intros N HQ (c & bs & Hc & H & ->). unfold rd_vec. eapply reads_bind; [apply reads_u; eassumption|]. eapply reads_times; eauto.
Qed.
Lemma vec_nonnil {A} (Q : A -> list Z -> Prop) l b : vec Q l b -> b <> [].
Proof. intros (c & bs & Hc & _ & ->). apply u32_nonnil in Hc. destruct c; [easy|discriminate]. Qed.
Lemma vec_u32_nonnil (n : Z) b : u32 n b -> b <> [].
Proof. apply u32_nonnil. Qed.

(* ---- names ---- *)
Lemma utf8_decode_char c s : scalar c -> utf8_decode (utf8_char c ++ s) = (let? t := utf8_decode s in Ok (c :: t)).
Proof.
  intros H. unfold scalar in H. unfold utf8_char.
  destruct (c <? 0x80) eqn:E1; [cbn [app utf8_decode]; now rewrite E1|].
  destruct (c <? 0x800) eqn:E2.
  - cbn [app utf8_decode].
    assert (A1 : 0xc0 + c / 64 <? 0x80 = false) by lia.
    assert (A2 : in_range 0xc2 0xdf (0xc0 + c / 64) = true) by (unfold in_range; lia).
    assert (A3 : cont (0x80 + c mod 64) = true) by (unfold cont, in_range; lia).
    rewrite A1, A2, A3. replace ((0xc0 + c / 64 - 0xc0) * 64 + (0x80 + c mod 64 - 0x80)) with c by lia. reflexivity.
  - destruct (c <? 0x10000) eqn:E3.
    + cbn [app utf8_decode].
      assert (A1 : 0xe0 + c / 4096 <? 0x80 = false) by lia.
      assert (A2 : in_range 0xc2 0xdf (0xe0 + c / 4096) = false) by (unfold in_range; lia).
      assert (A3 : in_range 0xe0 0xef (0xe0 + c / 4096) = true) by (unfold in_range; lia).
      assert (A4 : (if 0xe0 + c / 4096 =? 0xe0 then in_range 0xa0 0xbf (0x80 + c / 64 mod 64)
                    else if 0xe0 + c / 4096 =? 0xed then in_range 0x80 0x9f (0x80 + c / 64 mod 64)
                    else cont (0x80 + c / 64 mod 64)) && cont (0x80 + c mod 64) = true).
      { unfold cont, in_range. destruct (Z.eqb_spec (0xe0 + c / 4096) 0xe0); [lia|].
        destruct (Z.eqb_spec (0xe0 + c / 4096) 0xed); lia. }
      rewrite A1, A2, A3, A4.
      replace ((0xe0 + c / 4096 - 0xe0) * 4096 + (0x80 + c / 64 mod 64 - 0x80) * 64 + (0x80 + c mod 64 - 0x80)) with c by lia.
      reflexivity.
    + cbn [app utf8_decode].
      assert (A1 : 0xf0 + c / 262144 <? 0x80 = false) by lia.
      assert (A2 : in_range 0xc2 0xdf (0xf0 + c / 262144) = false) by (unfold in_range; lia).
      assert (A3 : in_range 0xe0 0xef (0xf0 + c / 262144) = false) by (unfold in_range; lia).
      assert (A4 : in_range 0xf0 0xf4 (0xf0 + c / 262144) = true) by (unfold in_range; lia).
      assert (A5 : (if 0xf0 + c / 262144 =? 0xf0 then in_range 0x90 0xbf (0x80 + c / 4096 mod 64)
                    else if 0xf0 + c / 262144 =? 0xf4 then in_range 0x80 0x8f (0x80 + c / 4096 mod 64)
                    else cont (0x80 + c / 4096 mod 64)) && cont (0x80 + c / 64 mod 64) && cont (0x80 + c mod 64) = true).
      { unfold cont, in_range. destruct (Z.eqb_spec (0xf0 + c / 262144) 0xf0); [lia|].
        destruct (Z.eqb_spec (0xf0 + c / 262144) 0xf4); lia. }
      rewrite A1, A2, A3, A4, A5.
      replace ((0xf0 + c / 262144 - 0xf0) * 262144 + (0x80 + c / 4096 mod 64 - 0x80) * 4096 +
               (0x80 + c / 64 mod 64 - 0x80) * 64 + (0x80 + c mod 64 - 0x80)) with c by lia.
      reflexivity.
Qed.
Lemma utf8_roundtrip s : Forall scalar s -> utf8_decode (utf8 s) = Ok s.
Proof.
  induction 1 as [|c s Hc _ IH]; [reflexivity|]. unfold utf8 in *. cbn [map concat].
  rewrite utf8_decode_char by exact Hc. rewrite IH. reflexivity.
Qed.
Lemma reads_name {B} s b (f : name -> R B) y c : enc_name s b -> reads (f s) y c ->
  reads (let! n := rd_u in let! nm := rd_name n in f nm) (b ++ y) c.
Proof.
  intros (Hs & x & Hx & ->) H. rewrite <- app_assoc. eapply reads_bind; [apply reads_u; eassumption|].
  eapply reads_bind; [|exact H]. unfold rd_name. eapply reads_then.
  - apply reads_bytes; [reflexivity|]. destruct Hx as (_ & _ & _ & L). lia.
  - intro rest. unfold lift. rewrite utf8_roundtrip by exact Hs. reflexivity.
Qed.
Lemma enc_name_nonnil s b : enc_name s b -> b <> [].
Proof. intros (_ & c & H & ->). apply u32_nonnil in H. destruct c; [easy|discriminate]. Qed.

(* ---- types ---- *)
Lemma reads_valtype t b : enc_valtype t b -> reads rd_valtype b t.
Proof. intros ->. intro rest. destruct t; reflexivity. Qed.
Lemma enc_valtype_nonnil t b : enc_valtype t b -> b <> [].
Proof. intros ->. discriminate. Qed.
Lemma reads_functype t b : enc_functype t b -> reads rd_functype b t.
Proof.
  intros (x & y & Hx & Hy & ->). unfold rd_functype. apply reads_ord_bind. apply reads_assert; [reflexivity|].
  eapply reads_bind; [eapply reads_vec; [apply enc_valtype_nonnil|apply reads_valtype|exact Hx]|].
  eapply reads_then; [eapply reads_vec; [apply enc_valtype_nonnil|apply reads_valtype|exact Hy]|].
  destruct t. apply reads_ret.
Qed.
Lemma reads_limits l b : enc_limits l b -> reads rd_limits b l.
Proof.
  intros [n x Hx|n m x y Hx Hy Hm]; unfold rd_limits; apply reads_ord_bind.
  - eapply reads_then; [apply reads_u; eassumption|]. intro rest. reflexivity.
  - eapply reads_bind; [apply reads_u; eassumption|]. cbn [Z.eqb negb]. eapply reads_then; [apply reads_u; eassumption|]. apply reads_ret.
Qed.
Lemma enc_limits_nonnil l b : enc_limits l b -> b <> [].
Proof. intros []; discriminate. Qed.
Lemma reads_tabletype t b : enc_tabletype t b -> reads rd_tabletype b t.
Proof.
  intros (x & y & (Ht & Hx) & Hy & ->). unfold rd_tabletype. eapply reads_bind; [apply reads_valtype; eassumption|].
  eapply reads_then; [apply reads_limits; eassumption|]. intro rest. destruct t as [t l]. cbn in *. destruct Ht as [->| ->]; reflexivity.
Qed.
Lemma reads_globaltype t b : enc_globaltype t b -> reads rd_globaltype b t.
Proof.
  intros (x & Hx & Hm & ->). unfold rd_globaltype. eapply reads_bind; [apply reads_valtype; eassumption|].
  apply reads_ord_bind. intro rest. destruct t as [t m]. cbn in *. destruct Hm as [->| ->]; reflexivity.
Qed.

(* ---- opcodes ---- *)
Definition opc_checks (p : Z) (l : list (opc * Z)) : bool :=
  forallb (fun x => match u_encode (snd x) with
                    | Ok e => match opc_of_code (be_of (p :: e)) with Some o => opc_code o =? opc_code (fst x) | None => false end
                    | Err _ => false end) l.
Lemma opc_code_inj a b : opc_code a = opc_code b -> a = b.
Proof.
  assert (forall o, opc_of_code (opc_code o) = Some o) as H by (intros []; vm_compute; reflexivity).
  intros E. pose proof (H a) as Ha. rewrite E, H in Ha. now injection Ha.
Qed.
Lemma one_byte_ok o n : In (o, n) one_byte -> n < 0xfc /\ opc_of_code n = Some o.
Proof.
  assert (forallb (fun x => (snd x <? 0xfc) &&
    match opc_of_code (snd x) with Some o => opc_code o =? opc_code (fst x) | None => false end) one_byte = true) as H
    by (vm_compute; reflexivity).
  intros Hin. rewrite forallb_forall in H. specialize (H _ Hin). cbn [fst snd] in H.
  apply andb_prop in H as [H1 H2]. split; [lia|]. destruct (opc_of_code n) as [o'|]; [|discriminate].
  apply Z.eqb_eq, opc_code_inj in H2. now subst.
Qed.
Lemma prefixed_ok p l o n : opc_checks p l = true -> In (o, n) l ->
  exists e, u_encode n = Ok e /\ opc_of_code (be_of (p :: e)) = Some o.
Proof.
  intros H Hin. unfold opc_checks in H. rewrite forallb_forall in H. specialize (H _ Hin). cbn [fst snd] in H.
  destruct (u_encode n) as [e|]; [|discriminate]. exists e. split; [reflexivity|].
  destruct (opc_of_code (be_of (p :: e))) as [o'|]; [|discriminate]. apply Z.eqb_eq, opc_code_inj in H. now subst.
Qed.
Lemma reads_opc o b : enc_opc o b -> reads rd_opc b o.
Proof.
  intros [o' n Hin|o' n x Hin Hx|o' n x Hin Hx]; unfold rd_opc; apply reads_ord_bind.
  - apply one_byte_ok in Hin as [H1 H2]. destruct (n >=? 0xfc) eqn:E; [lia|]. intro rest. unfold bind, ret. now rewrite H2.
  - destruct (prefixed_ok 0xfc after_fc o' n) as (e & He & Ho); [vm_compute; reflexivity|exact Hin|].
    change (0xfc >=? 0xfc) with true. cbn match.
    eapply reads_then.
    + eapply reads_then; [apply reads_u; eassumption|]. eapply reads_lift; [exact He|]. apply reads_ret.
    + rewrite Ho. apply reads_ret.
  - destruct (prefixed_ok 0xfd after_fd o' n) as (e & He & Ho); [vm_compute; reflexivity|exact Hin|].
    change (0xfd >=? 0xfc) with true. cbn match.
    eapply reads_then.
    + eapply reads_then; [apply reads_u; eassumption|]. eapply reads_lift; [exact He|]. apply reads_ret.
    + rewrite Ho. apply reads_ret.
Qed.
Lemma enc_opc_nonnil o b : enc_opc o b -> b <> [].
Proof. intros []; discriminate. Qed.
(* every instruction of the model has an encoding *)
Lemma opc_encodable o : (exists n, In (o, n) one_byte) \/ (exists n, In (o, n) after_fc) \/ (exists n, In (o, n) after_fd).
Proof.
  assert (forallb (fun o => existsb (fun x => opc_code (fst x) =? opc_code o) (one_byte ++ after_fc ++ after_fd)) all_opcs = true)
    as H by (vm_compute; reflexivity).
  assert (In o all_opcs) as Hin.
  { assert (opc_of_code (opc_code o) <> None) as E by (destruct o; vm_compute; discriminate).
    unfold opc_of_code in E. destruct (find _ all_opcs) as [o'|] eqn:F; [|easy].
    apply find_some in F as [F1 F2]. apply Z.eqb_eq, opc_code_inj in F2. now subst. }
  rewrite forallb_forall in H. specialize (H _ Hin). apply existsb_exists in H as ([o' n] & H1 & H2).
  cbn in H2. apply Z.eqb_eq, opc_code_inj in H2. subst. rewrite !in_app_iff in H1. destruct H1 as [H1|[H1|H1]]; eauto.
Qed.

(* ---- immediates ---- *)
Lemma reads_bype t b : enc_bype t b -> reads rd_bype b t.
Proof.
  intros [|t' x ->|i x Hx Hi]; intro rest; [reflexivity|destruct t'; reflexivity|].
  pose proof Hx as (Hg & _ & Hn & _). destruct x as [|n x]; [now apply group_nonnil in Hg|].
  assert (n <> 0x40 /\ exists e, vt_of_code n = Err e) as [N [e E]].
  { destruct Hg as (pre & l & E & Hpre & Hl). destruct pre as [|p pre]; cbn in E.
    - injection E as -> ->. rewrite base128_signed_one in Hn. destruct (64 <=? l mod 128) eqn:E64; [lia|].
      rewrite Z.mod_small in E64 by lia. split; [lia|]. exists EAssert. unfold vt_of_code.
      repeat (match goal with |- context [?a =? ?b] => destruct (Z.eqb_spec a b); [lia|] end). reflexivity.
    - injection E as -> ->. apply Forall_inv in Hpre. split; [lia|]. exists EAssert. unfold vt_of_code.
      repeat (match goal with |- context [?a =? ?b] => destruct (Z.eqb_spec a b); [lia|] end). reflexivity. }
  unfold rd_bype. cbn [app]. destruct (Z.eqb_spec n 0x40); [easy|]. rewrite E.
  unfold bind. change (n :: x ++ rest) with ((n :: x) ++ rest). rewrite (reads_i _ _ _ Hx rest). reflexivity.
Qed.
Lemma enc_bype_nonnil t b : enc_bype t b -> b <> [].
Proof. intros [|? ? ->|? ? (H & _) _]; try discriminate. now apply group_nonnil. Qed.
Lemma unpack_bits n z b : 1 <= n -> bits_of n z b -> unpack_s n b = Ok z.
Proof.
  intros Hn (Hb & Hl & Hz & Hr). unfold unpack_s. rewrite Hl, Z.eqb_refl. f_equal. unfold le_of_s.
  destruct b as [|x b]; [unfold len in Hl; cbn in Hl; lia|]. rewrite Hl, <- Hz. unfold signed_of.
  assert (2 ^ (8 * n) = 2 * 2 ^ (8 * n - 1)) as P by (rewrite <- Z.pow_succ_r by lia; f_equal; lia).
  destruct (Z.neg_nonneg_cases z) as [N|N].
  - rewrite <- (Z_mod_plus_full z 1). rewrite Z.mod_small by lia. destruct (_ <? _) eqn:E; lia.
  - rewrite Z.mod_small by lia. destruct (z <? _) eqn:E; lia.
Qed.
Lemma reads_lane k : 0 <= k < 128 -> reads rd_u [k] k.
Proof. intros. now apply reads_u, u32_byte. Qed.
Ltac rd := cbn [Z.ltb Z.eqb Z.compare Pos.compare Pos.compare_cont Pos.eqb];
  first [ eapply reads_bind; [solve [eauto using reads_u, reads_lane, reads_i]|]
        | eapply reads_then; [solve [eauto using reads_u, reads_i]|]
        | apply reads_ret | apply reads_assert; [reflexivity|] ].
Lemma align_bound a w k : 0 <= a -> 2 ^ a <= w -> w <= 2 ^ k -> 0 <= k -> (a <? k + 1) = true.
Proof.
  intros. apply Z.ltb_lt. destruct (Z.le_gt_cases a k); [lia|]. assert (2 ^ (k + 1) <= 2 ^ a) by (apply Z.pow_le_mono_r; lia).
  assert (2 ^ (k + 1) = 2 * 2 ^ k) by (rewrite <- Z.pow_succ_r by lia; f_equal; lia). assert (0 < 2 ^ k) by (apply Z.pow_pos_nonneg; lia). lia.
Qed.
Definition rd_mem (k : Z) : R (list arg) := let! a := rd_u in let! b := rd_u in assert (a <? k) ;; ret [AInt a; AInt b].
Lemma reads_mem k w a off x : memarg w a off x -> w <= 2 ^ k -> 0 <= k -> reads (rd_mem (k + 1)) x [AInt a; AInt off].
Proof.
  intros (y & z & Hy & Hz & Hw & ->) Hk K. unfold rd_mem.
  eapply reads_bind; [apply reads_u; eassumption|]. eapply reads_then; [apply reads_u; eassumption|].
  apply reads_assert; [|apply reads_ret]. eapply align_bound; eauto. now apply u32_nonneg in Hy.
Qed.
Lemma reads_mem_any w a off x : memarg w a off x ->
  reads (let! a := rd_u in let! b := rd_u in ret [AInt a; AInt b]) x [AInt a; AInt off].
Proof.
  intros (y & z & Hy & Hz & _ & ->).
  eapply reads_bind; [apply reads_u; eassumption|]. eapply reads_then; [apply reads_u; eassumption|]. apply reads_ret.
Qed.
Lemma reads_mem_lane w a off n k x : memarg w a off x -> 0 <= k < n -> n <= 128 ->
  reads (let! a := rd_u in let! b := rd_u in let! c := rd_u in assert (c <? n) ;; ret [AInt a; AInt b; AInt c]) (x ++ [k])
        [AInt a; AInt off; AInt k].
Proof.
  intros (y & z & Hy & Hz & _ & ->) Hk Hn. rewrite <- app_assoc.
  eapply reads_bind; [apply reads_u; eassumption|]. eapply reads_bind; [apply reads_u; eassumption|].
  eapply reads_then; [apply reads_lane; lia|]. apply reads_assert; [lia|]. apply reads_ret.
Qed.
Lemma reads_one_lane n k : 0 <= k < n -> n <= 128 -> reads (let! a := rd_u in assert (a <? n) ;; ret [AInt a]) [k] [AInt k].
Proof. intros. eapply reads_then; [apply reads_lane; lia|]. apply reads_assert; [lia|]. apply reads_ret. Qed.
Lemma forl_assert (f : Z -> bool) l y : Forall (fun e => f e = true) l -> forall rest,
  forl (S := list Z) (fun e => assert (f e)) l (y ++ rest) = (Ok tt, y ++ rest).
Proof.
  induction 1 as [|e l He _ IH]; intros rest; [reflexivity|]. cbn [forl]. unfold bind at 1, assert at 1, lift at 1. rewrite He. apply IH.
Qed.
Lemma concat_singles {A} (l : list A) : concat (map (fun x => [x]) l) = l.
Proof. induction l; cbn; congruence. Qed.
Lemma Forall2_map_r {A B} (Q : A -> B -> Prop) f l : Forall (fun a => Q a (f a)) l -> Forall2 Q l (map f l).
Proof. induction 1; cbn; constructor; auto. Qed.
Lemma reads_shuffle l : len l = 16 -> Forall (fun k => 0 <= k < 32) l ->
  reads (let! l := rd_times 16 rd_u in forl (fun e => assert (e <? 32)) l ;; ret (map AInt l)) l (map AInt l).
Proof.
  intros L H. eapply reads_then.
  - rewrite <- L. rewrite <- (concat_singles l) at 2. apply (reads_times u32 rd_u); [apply u32_nonnil|apply reads_u|].
    apply Forall2_map_r. eapply Forall_impl; [|exact H]. cbn. intros a Ha. apply u32_byte. lia.
  - intro rest. unfold bind. rewrite (forl_assert (fun e => e <? 32) l []); [reflexivity|].
    eapply Forall_impl; [|exact H]. cbn. intros; lia.
Qed.
Lemma reads_types ts x : vec enc_valtype ts x -> reads (let! a := rd_vec rd_u in ret [AList a]) x [AList (map vt_code ts)].
Proof.
  intros (c & bs & Hc & H & ->). eapply reads_then; [|apply reads_ret].
  unfold rd_vec. eapply reads_bind; [apply reads_u; eassumption|].
  replace (len ts) with (len (map vt_code ts)) by (unfold len; now rewrite map_length).
  apply (reads_times u32 rd_u); [apply u32_nonnil|apply reads_u|].
  clear Hc. induction H as [|t b ts bs Hb _ IH]; cbn; constructor; auto.
  rewrite Hb. destruct t; apply (u32_byte); lia.
Qed.
Lemma reads_args o s args b : shape_of o = Some s -> enc_args s args b -> reads (rd_args o) b args.
Proof.
  intros Hs He.
  destruct o; cbn in Hs; try discriminate Hs; assert (forall (A : Type) (x y : A), Some x = Some y -> x = y) as SI by (intros ? ? ? E; now injection E); apply SI in Hs; clear SI; subst s; cbn [rd_args];
  inversion He; subst; clear He;
  lazymatch goal with
  | |- reads (ret _) [] _ => apply reads_ret
  | H : u32 ?i ?b |- reads (bind rd_u (fun a => ret [AInt a])) ?b _ => eapply reads_then; [apply reads_u; eassumption|apply reads_ret]
  | H : memarg _ _ _ ?b |- reads (bind rd_u (fun a => bind rd_u (fun b0 => bind (assert (a <? ?n)) _))) ?b _ =>
      first [apply (reads_mem 0 _ _ _ _ H)|apply (reads_mem 1 _ _ _ _ H)|apply (reads_mem 2 _ _ _ _ H)
            |apply (reads_mem 3 _ _ _ _ H)|apply (reads_mem 4 _ _ _ _ H)]; lia
  | H : memarg _ _ _ ?b |- reads _ ?b _ => apply (reads_mem_any _ _ _ _ H)
  | H : memarg _ _ _ ?b |- reads _ (?b ++ _) _ => apply (reads_mem_lane _ _ _ _ _ _ H); lia
  | H : vec enc_valtype _ _ |- _ => apply (reads_types _ _ H)
  | |- reads (bind (rd_times _ _) _) _ _ => now apply reads_shuffle
  | H : 0 <= ?k < ?n |- reads _ [?k] _ => apply reads_one_lane; lia
  | |- _ => idtac
  end.
  - (* br_table *) eapply reads_bind; [eapply reads_vec; [apply u32_nonnil|apply reads_u|eassumption]|].
    eapply reads_then; [apply reads_u; eassumption|apply reads_ret].
  - eapply reads_bind; [apply reads_u; eassumption|]. eapply reads_then; [apply reads_u; eassumption|apply reads_ret].
  - intro rest. reflexivity.
  - intro rest. reflexivity.
  - eapply reads_then; [eapply reads_i; eassumption|apply reads_ret].
  - eapply reads_then; [eapply reads_i; eassumption|apply reads_ret].
  - match goal with H : bits_of _ _ _ |- _ => pose proof H as (_ & L & _) end. eapply reads_then; [apply reads_bytes; [exact L|lia]|].
    eapply reads_lift; [apply (unpack_bits 4); [lia|eassumption]|]. apply reads_ret.
  - match goal with H : bits_of _ _ _ |- _ => pose proof H as (_ & L & _) end. eapply reads_then; [apply reads_bytes; [exact L|lia]|].
    eapply reads_lift; [apply (unpack_bits 8); [lia|eassumption]|]. apply reads_ret.
  - intro rest. reflexivity.
  - eapply reads_bind; [apply reads_u; eassumption|]. intro rest. reflexivity.
  - intro rest. reflexivity.
  - intro rest. reflexivity.
  - eapply reads_bind; [apply reads_u; eassumption|]. eapply reads_then; [apply reads_u; eassumption|apply reads_ret].
  - eapply reads_bind; [apply reads_u; eassumption|]. eapply reads_then; [apply reads_u; eassumption|apply reads_ret].
  - eapply reads_then; [apply reads_bytes; [eassumption|lia]|]. apply reads_ret.
Qed.
