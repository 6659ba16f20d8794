(* Facts about the reader (Decode.v): it consumes input, ignores what follows, always stops, and what it accepts is in order. *)
From Coq Require Import ZArith List Bool Lia.
From Verif Require Import Py Leb128 Val Opcode Numeric Syntax Store Utf8 Decode SpecLeb SpecMem SpecRun SpecFormat PyFacts
  LebFacts DecodeFacts TreeFacts.
Import ListNotations.
Open Scope Z_scope.

(* ---- locality ---- *)
Definition local {A} (p : R A) : Prop := forall r a r', p r = (Ok a, r') -> exists c, r = c ++ r' /\ reads p c a.
Definition eats {A} (p : R A) : Prop := forall r a r', p r = (Ok a, r') -> exists c, c <> [] /\ r = c ++ r' /\ reads p c a.

Lemma eats_local {A} (p : R A) : eats p -> local p.
Proof. intros H r a r' E. destruct (H _ _ _ E) as (c & _ & Hc). eauto. Qed.
Lemma local_ret {A} (a : A) : local (ret a).
Proof. intros r x r' E. injection E as <- <-. exists []. split; [reflexivity|apply reads_ret]. Qed.
Lemma local_fail {A} e : local (@fail (list Z) A e).
Proof. intros r x r' E. discriminate. Qed.
Lemma local_lift {A} (v : res A) : local (lift v).
Proof. intros r x r' E. unfold lift in E. injection E as -> <-. exists []. split; [reflexivity|]. intro. reflexivity. Qed.
Lemma local_bind {A B} (p : R A) (f : A -> R B) : local p -> (forall a, local (f a)) -> local (bind p f).
Proof.
  intros H1 H2 r b r' E. unfold bind in E. destruct (p r) as [[a|e] r1] eqn:E1; [|discriminate].
  destruct (H1 _ _ _ E1) as (c1 & -> & R1). destruct (H2 _ _ _ _ E) as (c2 & -> & R2).
  exists (c1 ++ c2). split; [now rewrite app_assoc|]. eapply reads_bind; eauto.
Qed.
Lemma eats_bind {A B} (p : R A) (f : A -> R B) : eats p -> (forall a, local (f a)) -> eats (bind p f).
Proof.
  intros H1 H2 r b r' E. unfold bind in E. destruct (p r) as [[a|e] r1] eqn:E1; [|discriminate].
  destruct (H1 _ _ _ E1) as (c1 & N & -> & R1). destruct (H2 _ _ _ _ E) as (c2 & -> & R2).
  exists (c1 ++ c2). split; [destruct c1; easy|]. split; [now rewrite app_assoc|]. eapply reads_bind; eauto.
Qed.
Lemma eats_ord : eats rd_ord.
Proof. intros [|b r] a r' E; [discriminate|]. injection E as <- <-. exists [b]. split; [discriminate|split; [reflexivity|apply reads_ord]]. Qed.
Lemma read_group_local r a r' : read_group r = Ok (a, r') ->
  a <> [] /\ r = a ++ r' /\ forall r2, read_group (a ++ r2) = Ok (a, r2).
Proof.
  revert a r'. induction r as [|b r IH]; intros a r' E; [discriminate|]. cbn [read_group] in E.
  destruct (Z.land b 0x80 =? 0) eqn:Eb.
  - injection E as <- <-. split; [discriminate|]. split; [reflexivity|]. intro r2. cbn. now rewrite Eb.
  - destruct (read_group r) as [[a1 r1]|] eqn:Er; [|discriminate]. injection E as <- <-.
    destruct (IH _ _ eq_refl) as (N & -> & H). split; [discriminate|]. split; [reflexivity|].
    intro r2. cbn. rewrite Eb, H. reflexivity.
Qed.
Lemma eats_u : eats rd_u.
Proof.
  intros r a r' E. unfold rd_u, u_decode_reader in E. destruct (read_group r) as [[c r1]|] eqn:Er; [|discriminate].
  cbn in E. injection E as <- <-. destruct (read_group_local _ _ _ Er) as (N & -> & H). exists c. split; [exact N|split; [reflexivity|]].
  intro r2. unfold rd_u, u_decode_reader. now rewrite H.
Qed.
Lemma eats_i : eats rd_i.
Proof.
  intros r a r' E. unfold rd_i, i_decode_reader in E. destruct (read_group r) as [[c r1]|] eqn:Er; [|discriminate].
  cbn [rbind] in E. destruct (i_decode c) as [n|] eqn:En; [|discriminate]. cbn in E. injection E as <- <-.
  destruct (read_group_local _ _ _ Er) as (N & -> & H). exists c. split; [exact N|split; [reflexivity|]].
  intro r2. unfold rd_i, i_decode_reader. rewrite H. cbn [rbind]. now rewrite En.
Qed.
Lemma local_times {A} (p : R A) : eats p -> forall f n r l r', times f n p r = (Ok l, r') ->
  exists c, r = c ++ r' /\ forall f' r2, (length c < f')%nat -> times f' n p (c ++ r2) = (Ok l, r2).
Proof.
  intros Hp. induction f as [|f IH]; intros n r l r' E; [discriminate|]. cbn [times] in E.
  destruct (n <=? 0) eqn:En.
  - injection E as <- <-. exists []. split; [reflexivity|]. intros f' r2 L. destruct f' as [|f']; [cbn in L; lia|].
    cbn [times]. rewrite En. reflexivity.
  - unfold bind at 1 in E. destruct (p r) as [[a|e] r1] eqn:E1; [|discriminate]. unfold bind in E.
    destruct (times f (n - 1) p r1) as [[l1|e] r3] eqn:E2; [|discriminate]. injection E as <- <-.
    destruct (Hp _ _ _ E1) as (c1 & N & -> & R1). destruct (IH _ _ _ _ E2) as (c2 & -> & R2).
    exists (c1 ++ c2). split; [now rewrite app_assoc|]. intros f' r2 L. rewrite app_length in L.
    assert (0 < length c1)%nat by (destruct c1; [easy|cbn; lia]).
    destruct f' as [|f']; [lia|]. cbn [times]. rewrite En. unfold bind at 1. rewrite <- app_assoc, R1.
    unfold bind. rewrite R2 by lia. reflexivity.
Qed.
Lemma local_rd_times {A} (p : R A) n : eats p -> local (rd_times n p).
Proof.
  intros Hp r l r' E. destruct (local_times p Hp _ _ _ _ _ E) as (c & -> & H). exists c. split; [reflexivity|].
  intro r2. apply H. rewrite app_length. lia.
Qed.
Lemma eats_vec {A} (p : R A) : eats p -> eats (rd_vec p).
Proof. intros Hp. apply eats_bind; [apply eats_u|]. intros n. now apply local_rd_times. Qed.
Lemma eats_bype : eats rd_bype.
Proof.
  intros [|n r] a r' E; [discriminate|]. cbn [rd_bype] in E. destruct (n =? 0x40) eqn:E1.
  - injection E as <- <-. exists [n]. split; [discriminate|split; [reflexivity|]]. intro r2. cbn. now rewrite E1.
  - destruct (vt_of_code n) as [t|] eqn:E2.
    + injection E as <- <-. exists [n]. split; [discriminate|split; [reflexivity|]]. intro r2. cbn. now rewrite E1, E2.
    + unfold bind in E. destruct (rd_i (n :: r)) as [[i|e3] r1] eqn:E3; [|discriminate]. injection E as <- <-.
      destruct (eats_i _ _ _ E3) as (c & N & Ec & R). exists c. split; [exact N|split; [exact Ec|]].
      intro r2. destruct c as [|n' c]; [easy|]. injection Ec as <- Ec.
      cbn [app rd_bype]. rewrite E1, E2. unfold bind. change (n :: c ++ r2) with ((n :: c) ++ r2). rewrite R. reflexivity.
Qed.
Lemma eats_opc : eats rd_opc.
Proof.
  apply eats_bind; [apply eats_ord|]. intros b. apply local_bind.
  - destruct (b >=? 0xfc); [|apply local_ret]. apply local_bind; [apply eats_local, eats_u|]. intros k.
    apply local_bind; [apply local_lift|]. intros; apply local_ret.
  - intros k. destruct (opc_of_code k); [apply local_ret|apply local_fail].
Qed.
Lemma local_unpack n : 1 <= n < 2 ^ 63 -> local (let! b := rd_bytes n in let! a := lift (unpack_s n b) in ret [AInt a]).
Proof.
  intros Hn r a r' E. unfold bind, rd_bytes in E. destruct (n >=? 2 ^ 63) eqn:En; [lia|].
  unfold lift in E. destruct (unpack_s n _) as [z|] eqn:Eu; [|discriminate]. injection E as <- <-.
  exists (firstn (Z.to_nat (Z.min n (len r))) r). split; [symmetry; apply firstn_skipn|].
  assert (len (firstn (Z.to_nat (Z.min n (len r))) r) = n) as L.
  { unfold unpack_s in Eu. destruct (_ =? n) eqn:E2 in Eu; [lia|discriminate]. }
  eapply reads_then; [now apply reads_bytes|]. eapply reads_lift; [exact Eu|apply reads_ret].
Qed.
Lemma local_forl (f : Z -> bool) l : local (forl (S := list Z) (fun e => assert (f e)) l).
Proof. induction l; cbn; [apply local_ret|]. apply local_bind; [apply local_lift|]. intros. exact IHl. Qed.
Lemma local_args o : o <> O_v128_const -> local (rd_args o).
Proof.
  intros N. destruct o; try solve [destruct N; reflexivity].
  all: cbn [rd_args]; clear N;
    repeat first
    [ apply local_ret | apply local_unpack; lia
    | apply local_bind; [first [apply eats_local, eats_u|apply eats_local, eats_i|apply eats_local, eats_ord
        |apply eats_local, eats_vec, eats_u|apply local_lift|apply local_rd_times, eats_u|apply local_forl]|intro] ].
Qed.
Lemma suffix_bytes n r a r' : rd_bytes n r = (Ok a, r') -> r = a ++ r'.
Proof.
  unfold rd_bytes. destruct (n >=? 2 ^ 63); [discriminate|]. intros E. injection E as <- <-. symmetry. apply firstn_skipn.
Qed.
Lemma v128_weak r a r' : rd_args O_v128_const r = (Ok a, r') -> exists c, r = c ++ r' /\ (r' <> [] -> reads (rd_args O_v128_const) c a).
Proof.
  intros E. cbn [rd_args] in E. unfold bind in E. destruct (rd_bytes 16 r) as [[b|] r1] eqn:Eb; [|discriminate].
  injection E as <- <-. pose proof (suffix_bytes _ _ _ _ Eb) as ->. exists b. split; [reflexivity|]. intros N.
  cbn [rd_args]. eapply reads_then; [|apply reads_ret]. apply reads_bytes; [|lia].
  unfold rd_bytes in Eb. destruct (16 >=? 2 ^ 63) eqn:En; [lia|]. injection Eb as E1 E2.
  assert (len (skipn (Z.to_nat (Z.min 16 (len (b ++ r1)))) (b ++ r1)) = len r1) as L2 by now rewrite E2.
  unfold len in *. rewrite skipn_length in L2. rewrite app_length in *. destruct r1; [easy|]. cbn [length] in *. lia.
Qed.

Definition gives (b : list Z) (i : inst) : Prop := forall g r2, (length b <= g)%nat -> rd_inst_f g (b ++ r2) = (Ok i, r2).
Definition instlike (p : R inst) : Prop := forall r i r', p r = (Ok i, r') ->
  exists c, c <> [] /\ r = c ++ r' /\ (r' <> [] \/ inst_is O_v128_const i = false -> gives c i).
Definition reader_of (M : nat) (q : R inst) : Prop := forall b i r2, gives b i -> (length b <= M)%nat -> q (b ++ r2) = (Ok i, r2).
Lemma reader_inst_f g : reader_of g (rd_inst_f g).
Proof. intros b i r2 H L. apply H. exact L. Qed.
Lemma reader_inst M : reader_of M rd_inst.
Proof. intros b i r2 H L. apply H. rewrite app_length. lia. Qed.

Lemma is_end_not_v128 i : inst_is O_end i = true -> inst_is O_v128_const i = false.
Proof. destruct i as [| | |o a]; try discriminate. cbn. intros H. apply Z.eqb_eq in H. rewrite H. reflexivity. Qed.
Lemma is_else_not_v128 i : inst_is O_else_fi i = true -> inst_is O_v128_const i = false.
Proof. destruct i as [| | |o a]; try discriminate. cbn. intros H. apply Z.eqb_eq in H. rewrite H. reflexivity. Qed.
Lemma nonnil_len {A} (c : list A) : c <> [] -> (0 < length c)%nat.
Proof. destruct c; [easy|cbn; lia]. Qed.

Lemma until_local p : instlike p -> forall f r l r', until f p r = (Ok l, r') ->
  exists c, c <> [] /\ r = c ++ r' /\ forall f' M q r2, reader_of M q -> (length c <= f')%nat -> (length c <= M)%nat ->
    until f' q (c ++ r2) = (Ok l, r2).
Proof.
  intros Hp. induction f as [|f IH]; intros r l r' E; [discriminate|]. cbn [until] in E. unfold bind at 1 in E.
  destruct (p r) as [[i|e] r1] eqn:E1; [|discriminate]. destruct (Hp _ _ _ E1) as (c1 & N1 & -> & G).
  pose proof (nonnil_len _ N1) as L1.
  destruct (inst_is O_end i) eqn:Ei.
  - injection E as <- <-. exists c1. split; [exact N1|split; [reflexivity|]]. intros f' M q r2 Hq Lf LM.
    destruct f' as [|f']; [lia|]. cbn [until]. unfold bind. rewrite (Hq c1 i r2); [now rewrite Ei| |exact LM].
    apply G. right. now apply is_end_not_v128.
  - unfold bind in E. destruct (until f p r1) as [[l1|e] r3] eqn:E2; [|discriminate]. injection E as <- <-.
    destruct (IH _ _ _ E2) as (c2 & N2 & -> & H2). pose proof (nonnil_len _ N2) as L2.
    exists (c1 ++ c2). split; [destruct c1; easy|]. split; [now rewrite app_assoc|]. intros f' M q r2 Hq Lf LM.
    rewrite app_length in *. destruct f' as [|f']; [lia|]. cbn [until]. unfold bind at 1. rewrite <- app_assoc.
    rewrite (Hq c1 i (c2 ++ r2)); [|apply G; left; destruct c2; easy|lia]. rewrite Ei. unfold bind.
    rewrite (H2 f' M q r2 Hq) by lia. reflexivity.
Qed.
Lemma until_if_local p : instlike p -> forall f s r l r', until_if f p s r = (Ok l, r') ->
  exists c, c <> [] /\ r = c ++ r' /\ forall f' M q r2, reader_of M q -> (length c <= f')%nat -> (length c <= M)%nat ->
    until_if f' q s (c ++ r2) = (Ok l, r2).
Proof.
  intros Hp. induction f as [|f IH]; intros s r l r' E; [discriminate|]. cbn [until_if] in E. unfold bind at 1 in E.
  destruct (p r) as [[i|e] r1] eqn:E1; [|discriminate]. destruct (Hp _ _ _ E1) as (c1 & N1 & -> & G).
  pose proof (nonnil_len _ N1) as L1.
  destruct (inst_is O_end i) eqn:Ei.
  - injection E as <- <-. exists c1. split; [exact N1|split; [reflexivity|]]. intros f' M q r2 Hq Lf LM.
    destruct f' as [|f']; [lia|]. cbn [until_if]. unfold bind. rewrite (Hq c1 i r2); [now rewrite Ei| |exact LM].
    apply G. right. now apply is_end_not_v128.
  - destruct (inst_is O_else_fi i) eqn:Ee.
    + destruct (IH _ _ _ _ E) as (c2 & N2 & -> & H2). pose proof (nonnil_len _ N2) as L2.
      exists (c1 ++ c2). split; [destruct c1; easy|]. split; [now rewrite app_assoc|]. intros f' M q r2 Hq Lf LM.
      rewrite app_length in *. destruct f' as [|f']; [lia|]. cbn [until_if]. unfold bind at 1. rewrite <- app_assoc.
      rewrite (Hq c1 i (c2 ++ r2)); [|apply G; left; destruct c2; easy|lia]. rewrite Ei, Ee. apply H2 with (M := M); [exact Hq|lia|lia].
    + unfold bind in E. destruct (until_if f p s r1) as [[[l1 k1]|e] r3] eqn:E2; [|discriminate]. injection E as <- <-.
      destruct (IH _ _ _ _ E2) as (c2 & N2 & -> & H2). pose proof (nonnil_len _ N2) as L2.
      exists (c1 ++ c2). split; [destruct c1; easy|]. split; [now rewrite app_assoc|]. intros f' M q r2 Hq Lf LM.
      rewrite app_length in *. destruct f' as [|f']; [lia|]. cbn [until_if]. unfold bind at 1. rewrite <- app_assoc.
      rewrite (Hq c1 i (c2 ++ r2)); [|apply G; left; destruct c2; easy|lia]. rewrite Ei, Ee. unfold bind.
      rewrite (H2 f' M q r2 Hq) by lia. reflexivity.
Qed.

(* Inst.from_reader by kind of instruction *)
Definition rd_tree (f : nat) (o : opc) : R inst :=
  match o with
  | O_block => let! t := rd_bype in let! l := until f (rd_inst_f f) in ret (IBlock t l)
  | O_loop => let! t := rd_bype in let! l := until f (rd_inst_f f) in ret (ILoop t l)
  | O_if_then => let! t := rd_bype in let! (l, k) := until_if f (rd_inst_f f) false in ret (IIf t l k)
  | _ => let! a := rd_args o in ret (IOp o a)
  end.
Lemma rd_tree_cases o :
  o = O_block \/ o = O_loop \/ o = O_if_then \/ (forall f, rd_tree f o = (let! a := rd_args o in ret (IOp o a))).
Proof. destruct o; auto. Qed.
Lemma rd_inst_unfold f r : rd_inst_f (S f) r = (let! o := rd_opc in rd_tree f o) r.
Proof. reflexivity. Qed.

Lemma inst_f_local f : instlike (rd_inst_f f).
Proof.
  induction f as [|f IH]; intros r i r' E; [discriminate|]. rewrite rd_inst_unfold in E. unfold bind in E.
  destruct (rd_opc r) as [[o|e] r1] eqn:Eo; [|discriminate]. destruct (eats_opc _ _ _ Eo) as (c1 & N1 & -> & R1).
  pose proof (nonnil_len _ N1) as L1.
  assert (forall c i', (forall g r2, (length c <= g)%nat -> rd_tree g o (c ++ r2) = (Ok i', r2)) -> gives (c1 ++ c) i') as K.
  { intros c i' H g r2 L. rewrite app_length in L. destruct g as [|g]; [lia|]. rewrite rd_inst_unfold. unfold bind.
    rewrite <- app_assoc, R1. apply H. lia. }
  destruct (rd_tree_cases o) as [->|[->|[->|Ep]]].
  - cbn [rd_tree] in E. unfold bind in E. destruct (rd_bype r1) as [[t|e] r2] eqn:Et; [|discriminate].
    destruct (until f (rd_inst_f f) r2) as [[l|e] r3] eqn:El; [|discriminate]. injection E as <- <-.
    destruct (eats_bype _ _ _ Et) as (c2 & N2 & -> & R2). destruct (until_local _ IH _ _ _ _ El) as (c3 & N3 & -> & R3).
    exists (c1 ++ c2 ++ c3). split; [destruct c1; easy|]. split; [now rewrite !app_assoc|]. intros _. apply K.
    intros g r4 L. rewrite app_length in L. cbn [rd_tree]. unfold bind. rewrite <- app_assoc, R2.
    rewrite (R3 g g _ r4 (reader_inst_f g)) by lia. reflexivity.
  - cbn [rd_tree] in E. unfold bind in E. destruct (rd_bype r1) as [[t|e] r2] eqn:Et; [|discriminate].
    destruct (until f (rd_inst_f f) r2) as [[l|e] r3] eqn:El; [|discriminate]. injection E as <- <-.
    destruct (eats_bype _ _ _ Et) as (c2 & N2 & -> & R2). destruct (until_local _ IH _ _ _ _ El) as (c3 & N3 & -> & R3).
    exists (c1 ++ c2 ++ c3). split; [destruct c1; easy|]. split; [now rewrite !app_assoc|]. intros _. apply K.
    intros g r4 L. rewrite app_length in L. cbn [rd_tree]. unfold bind. rewrite <- app_assoc, R2.
    rewrite (R3 g g _ r4 (reader_inst_f g)) by lia. reflexivity.
  - cbn [rd_tree] in E. unfold bind in E. destruct (rd_bype r1) as [[t|e] r2] eqn:Et; [|discriminate].
    destruct (until_if f (rd_inst_f f) false r2) as [[[l k]|e] r3] eqn:El; [|discriminate]. injection E as <- <-.
    destruct (eats_bype _ _ _ Et) as (c2 & N2 & -> & R2). destruct (until_if_local _ IH _ _ _ _ _ El) as (c3 & N3 & -> & R3).
    exists (c1 ++ c2 ++ c3). split; [destruct c1; easy|]. split; [now rewrite !app_assoc|]. intros _. apply K.
    intros g r4 L. rewrite app_length in L. cbn [rd_tree]. unfold bind. rewrite <- app_assoc, R2.
    rewrite (R3 g g _ r4 (reader_inst_f g)) by lia. reflexivity.
  - rewrite Ep in E. unfold bind in E. destruct (rd_args o r1) as [[a|e] r2] eqn:Ea; [|discriminate]. injection E as <- <-.
    assert (exists c, r1 = c ++ r2 /\ (r2 <> [] \/ inst_is O_v128_const (IOp o a) = false -> reads (rd_args o) c a))
      as (c & -> & Rc).
    { destruct (inst_is O_v128_const (IOp o a)) eqn:Ev.
      - change (opc_code o =? opc_code O_v128_const = true) in Ev. apply Z.eqb_eq, opc_code_inj in Ev. subst o. destruct (v128_weak _ _ _ Ea) as (c & -> & H). exists c.
        split; [reflexivity|]. intros [H'|H']; [auto|discriminate].
      - destruct (local_args o) with (r := r1) (a := a) (r' := r2) as (c & -> & H); [|exact Ea|eauto].
        intros ->. discriminate. }
    exists (c1 ++ c). split; [destruct c1; easy|]. split; [now rewrite app_assoc|]. intros Hs. apply K.
    intros g r3 _. rewrite Ep. unfold bind. rewrite (Rc Hs). reflexivity.
Qed.

Lemma expr_local : eats rd_expr.
Proof.
  intros r l r' E. unfold rd_expr in E.
  assert (instlike rd_inst) as Hi by (intros r0 i r1 E0; exact (inst_f_local _ _ _ _ E0)).
  destruct (until_local _ Hi _ _ _ _ E) as (c & N & -> & H). exists c. split; [exact N|split; [reflexivity|]].
  intro r2. unfold rd_expr. apply (H _ (length c) rd_inst r2 (reader_inst _)); [rewrite app_length|]; lia.
Qed.
Lemma inst_local r i r' : rd_inst r = (Ok i, r') ->
  exists c, c <> [] /\ r = c ++ r' /\ (r' <> [] \/ inst_is O_v128_const i = false -> reads rd_inst c i).
Proof.
  intros E. destruct (inst_f_local _ _ _ _ E) as (c & N & -> & G). exists c. split; [exact N|split; [reflexivity|]].
  intros Hs r2. apply (G Hs). rewrite app_length. lia.
Qed.

(* ---- encodings of whole expressions ---- *)
Lemma expr_roundtrip l b : enc_expr l b -> reads rd_expr b l.
Proof.
  intros (x & H & ->) rest. destruct trees_read as [_ T]. pose proof (T _ _ H) as Sx.
  assert (until (S (length (x ++ 0x0b :: rest))) (rd_inst_f (S (length x))) (x ++ 0x0b :: rest) = (Ok l, rest)) as E.
  { apply seq_body; [exact Sx| |]; rewrite ?app_length; lia. }
  rewrite <- app_assoc. cbn [app]. unfold rd_expr.
  destruct (until_local _ (inst_f_local _) _ _ _ _ E) as (c & N & Ec & G).
  rewrite Ec. apply (G _ (length c) rd_inst rest (reader_inst _)); [rewrite app_length|]; lia.
Qed.
Lemma enc_expr_nonnil l b : enc_expr l b -> b <> [].
Proof. intros (x & _ & ->). destruct x; discriminate. Qed.

(* ---- stopping, and what is accepted ---- *)
Definition good (n : nat) (strict : bool) {A} (Q : A -> Prop) (p : R A) : Prop := forall r, bytes r -> (length r < n)%nat ->
  match p r with
  | (Ok a, r') => bytes r' /\ Q a /\ (if strict then length r' < length r else length r' <= length r)%nat
  | (Err e, _) => e <> EStop
  end.
Lemma good_ret n {A} (Q : A -> Prop) a : Q a -> good n false Q (ret a).
Proof. intros H r Hr L. cbn. auto. Qed.
Lemma good_fail n s {A} (Q : A -> Prop) e : e <> EStop -> good n s Q (fail e).
Proof. intros H r Hr L. exact H. Qed.
Lemma good_lift n {A} (Q : A -> Prop) v : match v with Ok a => Q a | Err e => e <> EStop end -> good n false Q (lift v).
Proof. intros H r Hr L. unfold lift. destruct v; auto. Qed.
Lemma good_assert n b : good n false (fun _ => b = true) (assert b).
Proof. apply good_lift. destruct b; cbn; [reflexivity|discriminate]. Qed.
Lemma good_le n m s {A} (Q : A -> Prop) p : (m <= n)%nat -> good n s Q p -> good m s Q p.
Proof. intros L H r Hr Lr. apply H; [exact Hr|lia]. Qed.
Lemma good_relax n {A} (Q : A -> Prop) p : good n true Q p -> good n false Q p.
Proof. intros H r Hr Lr. specialize (H r Hr Lr). destruct (p r) as [[a|e] r']; [|exact H]. destruct H as (? & ? & ?). repeat split; auto. lia. Qed.
Lemma good_weaken n s {A} (Q Q' : A -> Prop) p : (forall a, Q a -> Q' a) -> good n s Q p -> good n s Q' p.
Proof. intros HQ H r Hr Lr. specialize (H r Hr Lr). destruct (p r) as [[a|e] r']; [|exact H]. destruct H as (? & ? & ?). auto. Qed.
Lemma good_bind n {A B} (Q : A -> Prop) (Q' : B -> Prop) (p : R A) f : good n false Q p -> (forall a, Q a -> good n false Q' (f a)) ->
  good n false Q' (bind p f).
Proof.
  intros H1 H2 r Hr Lr. unfold bind. specialize (H1 r Hr Lr). destruct (p r) as [[a|e] r1]; [|exact H1].
  destruct H1 as (B1 & Qa & L1). specialize (H2 a Qa r1 B1 ltac:(lia)). destruct (f a r1) as [[b|e] r2]; [|exact H2].
  destruct H2 as (? & ? & ?). repeat split; auto. lia.
Qed.
(* after a byte has been taken one less has to be provided for *)
Lemma good_bind_strict n {A B} (Q : A -> Prop) (Q' : B -> Prop) (p : R A) f : good (S n) true Q p ->
  (forall a, Q a -> good n false Q' (f a)) -> good (S n) true Q' (bind p f).
Proof.
  intros H1 H2 r Hr Lr. unfold bind. specialize (H1 r Hr Lr). destruct (p r) as [[a|e] r1]; [|exact H1].
  destruct H1 as (B1 & Qa & L1). specialize (H2 a Qa r1 B1 ltac:(lia)). destruct (f a r1) as [[b|e] r2]; [|exact H2].
  destruct H2 as (? & ? & ?). repeat split; auto. lia.
Qed.
Lemma good_strict n {A B} (Q : A -> Prop) (Q' : B -> Prop) (p : R A) f : good n true Q p ->
  (forall a, Q a -> good n false Q' (f a)) -> good n true Q' (bind p f).
Proof.
  destruct n as [|n]; [intros _ _ r _ L; lia|]. intros H1 H2. eapply good_bind_strict; [exact H1|].
  intros a Ha. eapply good_le; [|apply H2, Ha]. lia.
Qed.
Lemma bytes_app a b : bytes (a ++ b) <-> bytes a /\ bytes b.
Proof. apply Forall_app. Qed.
Lemma good_ord n : good n true byte rd_ord.
Proof. intros [|b r] Hr L; [discriminate|]. cbn. inversion Hr; subst. auto. Qed.
Lemma good_u n : good n true (fun z => 0 <= z) rd_u.
Proof.
  intros r Hr L. unfold rd_u, u_decode_reader. destruct (read_group r) as [[c r1]|e] eqn:Er; cbn.
  - destruct (read_group_local _ _ _ Er) as (N & -> & _). apply bytes_app in Hr as [_ Hr]. split; [exact Hr|].
    rewrite u_decode_spec, app_length. split; [apply base128_bound|]. apply nonnil_len in N. lia.
  - destruct (read_group_all r Hr) as [(?&?&?&?&E)|(_ & E)]; rewrite E in Er; [discriminate|]. injection Er as <-. discriminate.
Qed.
Lemma good_i n : good n true (fun _ => True) rd_i.
Proof.
  intros r Hr L. unfold rd_i, i_decode_reader. destruct (read_group r) as [[c r1]|e] eqn:Er; cbn [rbind].
  - destruct (read_group_local _ _ _ Er) as (N & -> & _). apply bytes_app in Hr as [_ Hr].
    rewrite (i_decode_spec c N). cbn. split; [exact Hr|]. rewrite app_length. apply nonnil_len in N. split; [exact I|lia].
  - destruct (read_group_all r Hr) as [(?&?&?&?&E)|(_ & E)]; rewrite E in Er; [discriminate|]. injection Er as <-. discriminate.
Qed.
Lemma good_bytes n k : good n false bytes (rd_bytes k).
Proof.
  intros r Hr L. destruct (rd_bytes k r) as [[a|e] r'] eqn:E.
  - apply suffix_bytes in E. subst r. apply bytes_app in Hr as [H1 H2]. rewrite app_length. repeat split; auto. lia.
  - unfold rd_bytes in E. destruct (_ >=? _); [|discriminate]. injection E as <- <-. discriminate.
Qed.
Lemma good_times {A} (Q : A -> Prop) p : (forall n, good n true Q p) -> forall f k, good f false (Forall Q) (times f k p).
Proof.
  intros Hp. induction f as [|f IH]; intros k; [intros r _ L; lia|]. cbn [times]. destruct (k <=? 0).
  - apply good_ret. constructor.
  - apply good_relax. eapply good_bind_strict; [apply Hp|]. intros a Ha. eapply good_bind; [apply IH|].
    intros l Hl. apply good_ret. now constructor.
Qed.
Lemma good_rd_times n {A} (Q : A -> Prop) p k : (forall n, good n true Q p) -> good n false (Forall Q) (rd_times k p).
Proof. intros Hp r Hr L. unfold rd_times. apply (good_times Q p Hp); [exact Hr|lia]. Qed.
Lemma good_vec n {A} (Q : A -> Prop) p : (forall n, good n true Q p) -> good n true (Forall Q) (rd_vec p).
Proof. intros Hp. eapply good_strict; [apply good_u|]. intros k _. now apply good_rd_times. Qed.
