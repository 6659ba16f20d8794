(* Facts about decoding whole modules: every module read back from any of its encodings. *)
From Coq Require Import ZArith List Bool Lia.
From Verif Require Import Py Leb128 Arith Val Opcode Syntax Store Utf8 Decode SpecLeb SpecInt SpecMem SpecFormat.
From Verif Require Import PyFacts LebFacts DecodeFacts TreeFacts LocalFacts.
Import ListNotations.
Open Scope Z_scope.

Lemma reads_expr l b : enc_expr l b -> reads rd_expr b l.
Proof. apply expr_roundtrip. Qed.
Lemma reads_import i b : enc_import i b -> reads rd_import b i.
Proof.
  intros (x & y & z & Hx & Hy & -> & Hz). destruct i as [md nm d]. cbn in *. unfold rd_import.
  apply (reads_name md x _ (y ++ z)); [exact Hx|]. apply (reads_name nm y _ z); [exact Hy|].
  destruct d as [t|t|t|t]; destruct Hz as (w & Hw & ->); apply reads_ord_bind.
  - eapply reads_then; [|apply reads_ret]. cbn. eapply reads_then; [apply reads_u; eassumption|apply reads_ret].
  - eapply reads_then; [|apply reads_ret]. cbn. eapply reads_then; [apply reads_tabletype; eassumption|apply reads_ret].
  - eapply reads_then; [|apply reads_ret]. cbn. eapply reads_then; [apply reads_limits; eassumption|apply reads_ret].
  - eapply reads_then; [|apply reads_ret]. cbn. eapply reads_then; [apply reads_globaltype; eassumption|apply reads_ret].
Qed.
Lemma app_nonnil {A} (x y : list A) : x <> [] -> x ++ y <> [].
Proof. destruct x; [easy|discriminate]. Qed.
Lemma enc_import_nonnil i b : enc_import i b -> b <> [].
Proof. intros (x & y & z & Hx & _ & -> & _). apply app_nonnil. eapply enc_name_nonnil; eauto. Qed.
Lemma reads_global g b : enc_global g b -> reads rd_global b g.
Proof.
  intros (x & y & Hx & Hy & ->). destruct g as [t e]. eapply reads_bind; [apply reads_globaltype; eassumption|].
  eapply reads_then; [apply reads_expr; eassumption|apply reads_ret].
Qed.
Lemma enc_globaltype_nonnil g b : enc_globaltype g b -> b <> [].
Proof. intros (x & Hx & _ & ->). apply app_nonnil. eapply enc_valtype_nonnil; eauto. Qed.
Lemma enc_global_nonnil g b : enc_global g b -> b <> [].
Proof. intros (x & y & Hx & _ & ->). apply app_nonnil. eapply enc_globaltype_nonnil; eauto. Qed.
Lemma reads_export e b : enc_export e b -> reads rd_export b e.
Proof.
  intros (x & y & Hx & Hk & Hy & ->). destruct e as [nm k d]. cbn in *. apply (reads_name nm x _ (k :: y)); [exact Hx|].
  apply reads_ord_bind. eapply reads_then; [apply reads_u; eassumption|]. apply reads_assert; [lia|apply reads_ret].
Qed.
Lemma enc_export_nonnil e b : enc_export e b -> b <> [].
Proof. intros (x & y & Hx & _ & _ & ->). apply app_nonnil. eapply enc_name_nonnil; eauto. Qed.
Lemma reads_funcidx e b : enc_funcref e b -> reads rd_funcidx b e.
Proof. intros (f & -> & H). eapply reads_then; [apply reads_u; eassumption|apply reads_ret]. Qed.
Lemma enc_funcref_nonnil e b : enc_funcref e b -> b <> [].
Proof. intros (f & _ & H). eapply u32_nonnil; eauto. Qed.
Lemma reads_funcs i y : vec enc_funcref i y -> reads (rd_vec rd_funcidx) y i.
Proof. apply reads_vec; [apply enc_funcref_nonnil|apply reads_funcidx]. Qed.
Lemma reads_exprs i y : vec enc_expr i y -> reads (rd_vec rd_expr) y i.
Proof. apply reads_vec; [apply enc_expr_nonnil|apply reads_expr]. Qed.
Lemma reads_reftype t b : enc_reftype t b -> reads rd_valtype b t.
Proof. intros [_ H]. now apply reads_valtype. Qed.
Lemma reads_elemkind : reads rd_elemkind [0] tt.
Proof. intro. reflexivity. Qed.
Ltac rdm := first
  [ eapply reads_bind; [first [apply reads_u; eassumption|apply reads_expr; eassumption|apply reads_elemkind
      |apply reads_reftype; eassumption]|cbv beta]
  | eapply reads_then; [first [apply reads_funcs; eassumption|apply reads_exprs; eassumption]|apply reads_ret] ].
Lemma reads_elem e b : enc_elem e b -> reads rd_elem b e.
Proof. intros []; unfold rd_elem; (eapply reads_bind; [apply reads_u; eassumption|cbn [Z.eqb Pos.eqb]]); repeat rdm. Qed.
Lemma enc_elem_nonnil e b : enc_elem e b -> b <> [].
Proof. intros []; apply app_nonnil; eapply u32_nonnil; eauto. Qed.
Lemma reads_data_bytes {B} d b (f : list Z -> R B) c : enc_bytes d b -> reads (f d) [] c ->
  reads (let! n := rd_u in let! d := rd_bytes n in f d) b c.
Proof.
  intros (Hd & x & Hx & ->) H. eapply reads_bind; [apply reads_u; eassumption|]. eapply reads_then; [|exact H].
  apply reads_bytes; [reflexivity|]. destruct Hx as (_ & _ & _ & ?). lia.
Qed.
Lemma reads_data e b : enc_data e b -> reads rd_data b e.
Proof.
  intros []; unfold rd_data; (eapply reads_bind; [apply reads_u; eassumption|cbn [Z.eqb Pos.eqb]]); repeat rdm;
    (eapply reads_data_bytes; [eassumption|]); intro; reflexivity.
Qed.
Lemma enc_data_nonnil e b : enc_data e b -> b <> [].
Proof. intros []; apply app_nonnil; eapply u32_nonnil; eauto. Qed.
Lemma reads_locals l b : enc_locals l b -> reads rd_locals b l.
Proof.
  intros (x & y & Hx & Hy & ->). destruct l. eapply reads_bind; [apply reads_u; eassumption|].
  eapply reads_then; [apply reads_valtype; eassumption|apply reads_ret].
Qed.
Lemma enc_locals_nonnil l b : enc_locals l b -> b <> [].
Proof. intros (x & y & Hx & _ & ->). apply app_nonnil. eapply u32_nonnil; eauto. Qed.
Lemma enc_functype_nonnil l b : enc_functype l b -> b <> [].
Proof. intros (x & y & Hx & _ & ->). discriminate. Qed.
Lemma enc_tabletype_nonnil l b : enc_tabletype l b -> b <> [].
Proof. intros (x & y & (_ & Hx) & _ & ->). apply app_nonnil. eapply enc_valtype_nonnil; eauto. Qed.
(* what is left of a function when only its type has been read *)
Definition stub (f : funcdesc) : funcdesc := mkfd (fd_type f) [] [].
Lemma reads_func_types l b : vec enc_func_type l b -> reads (rd_vec rd_func_type) b (map stub l).
Proof.
  intros (c & bs & Hc & H & ->). apply (reads_vec (fun f b => u32 (fd_type f) b /\ f = stub f)).
  - intros a x [Hu _]. eapply u32_nonnil; eauto.
  - intros a x [Hu ->]. eapply reads_then; [apply reads_u; eassumption|apply reads_ret].
  - exists c, bs. split; [unfold len in *; now rewrite map_length|]. split; [|reflexivity].
    clear Hc. induction H; cbn; constructor; auto.
Qed.
Lemma reads_func_code f b : forall c x y, vec enc_locals (fd_locals f) x -> enc_expr (fd_expr f) y -> b = x ++ y -> c = tt ->
  on_bytes rd_func_code b = Ok (mkfd 0 (fd_locals f) (fd_expr f)).
Proof.
  intros _ x y Hx Hy -> _. assert (reads rd_func_code (x ++ y) (mkfd 0 (fd_locals f) (fd_expr f))) as H.
  { eapply reads_bind; [eapply reads_vec; [apply enc_locals_nonnil|apply reads_locals|exact Hx]|].
    eapply reads_then; [apply reads_expr; eassumption|apply reads_ret]. }
  specialize (H []). rewrite app_nil_r in H. unfold on_bytes. now rewrite H.
Qed.
Lemma index_mid {A} (l : list A) x k : py_index (l ++ x :: k) (len l) = Ok x.
Proof.
  unfold py_index, len. destruct (Z.of_nat (length l) <? 0) eqn:E; [lia|]. cbv zeta. rewrite E, Nat2Z.id, nth_error_app2 by lia.
  now rewrite PeanoNat.Nat.sub_diag.
Qed.
Lemma upd_mid {A} (l : list A) x y k : upd (l ++ x :: k) (length l) y = l ++ y :: k.
Proof. induction l; cbn; congruence. Qed.
Lemma set_mid {A} (l : list A) x y k : py_setitem (l ++ x :: k) (len l) y = Ok (l ++ y :: k).
Proof.
  unfold py_setitem, len. rewrite app_length. cbn [length]. destruct (Z.of_nat (length l) <? 0) eqn:E; [lia|]. cbv zeta. rewrite E.
  destruct (_ <=? _) eqn:E2; [lia|]. cbn [orb]. now rewrite Nat2Z.id, upd_mid.
Qed.
Lemma reads_codes l : forall bs done f, Forall2 enc_func_code l bs -> (length l < f)%nat -> forall rest,
  rd_codes f (len l) (len done) (done ++ map stub l) (concat bs ++ rest) = (Ok (done ++ l), rest).
Proof.
  induction l as [|x l IH]; intros bs done f H L rest; destruct f as [|f]; try lia; cbn [rd_codes].
  - inversion H; subst. cbn [map]. rewrite !app_nil_r. reflexivity.
  - inversion H as [|? b ? bs' Hx Hl]; subst. destruct (len (x :: l) <=? 0) eqn:E; [unfold len in E; cbn [length] in E; lia|].
    destruct Hx as (c & u & v & Hu & Hv & Hc & ->). cbn [concat map]. rewrite <- !app_assoc.
    assert (u32 (len (u ++ v)) c) as Hc' by exact Hc. destruct Hc' as (_ & _ & _ & Hlt).
    unfold bind at 1. rewrite (reads_u _ _ Hc). unfold bind at 1.
    replace (u ++ v ++ concat bs' ++ rest) with ((u ++ v) ++ concat bs' ++ rest) by now rewrite <- app_assoc.
    rewrite (reads_bytes (u ++ v) (len (u ++ v)) eq_refl) by lia.
    unfold bind at 1, lift at 1. rewrite (reads_func_code x (u ++ v) tt u v Hu Hv eq_refl eq_refl).
    unfold bind at 1, lift at 1. rewrite index_mid. unfold bind at 1, lift at 1. rewrite set_mid. cbn [fd_type stub fd_locals fd_expr].
    replace (len (x :: l) - 1) with (len l) by (unfold len; cbn [length]; lia).
    replace (len done + 1) with (len (done ++ [x])) by (unfold len; rewrite app_length; cbn [length]; lia).
    replace (done ++ {| fd_type := fd_type x; fd_locals := fd_locals x; fd_expr := fd_expr x |} :: map stub l)
      with ((done ++ [x]) ++ map stub l) by (rewrite <- app_assoc; cbn; now destruct x).
    replace (done ++ x :: l) with ((done ++ [x]) ++ l) by (rewrite <- app_assoc; reflexivity).
    apply IH; [exact Hl|cbn in L; lia].
Qed.
Lemma enc_func_code_nonnil f b : enc_func_code f b -> b <> [].
Proof. intros (c & x & y & _ & _ & H & ->). apply app_nonnil. eapply u32_nonnil; eauto. Qed.

(* ---- the sections one after the other ---- *)
Fixpoint take_in (ss : list section) (md : moddesc) : res moddesc :=
  match ss with
  | [] => Ok md
  | s :: ss => let? md := on_bytes (rd_section (fst s) md) (snd s) in take_in ss md
  end.
Lemma take_in_app a b md : take_in (a ++ b) md = let? md := take_in a md in take_in b md.
Proof. revert md. induction a as [|s a IH]; intros md; cbn; [reflexivity|]. destruct (on_bytes _ _); cbn; auto. Qed.
Lemma sections_take_in all : forall bs k md, Forall2 enc_section all bs -> (length all <= k)%nat ->
  on_bytes (rd_sections k md) (concat bs) = take_in all md.
Proof.
  induction all as [|s all IH]; intros bs k md H L; inversion H as [|? b ? bs' Hs Hl]; subst.
  - destruct k; reflexivity.
  - cbn in L. destruct k as [|k]; [lia|]. destruct Hs as (c & Hc & ->). cbn [concat app take_in]. unfold on_bytes at 1. cbn [rd_sections].
    assert (u32 (len (snd s)) c) as (_ & _ & _ & Hlt) by exact Hc. rewrite <- app_assoc.
    unfold bind at 1. rewrite (reads_u _ _ Hc). unfold bind at 1. rewrite (reads_bytes (snd s) (len (snd s)) eq_refl) by lia.
    unfold bind at 1, assert, lift at 1. rewrite Z.eqb_refl. unfold bind at 1, lift at 1.
    destruct (on_bytes (rd_section (fst s) md) (snd s)) as [md'|e]; [|reflexivity]. apply IH; [exact Hl|lia].
Qed.
Lemma custom_nothing s md : fst s = 0 -> enc_custom (snd s) -> on_bytes (rd_section (fst s) md) (snd s) = Ok md.
Proof.
  intros E (nm & x & rest & Hx & ->). rewrite E. destruct md. unfold on_bytes, rd_section. cbn [Z.eqb]. destruct Hx as (Hs & c & Hc & ->).
  unfold bind at 1. unfold rd_custom. unfold bind at 1. rewrite <- app_assoc, (reads_u _ _ Hc).
  assert (forall B (f : name -> R B) r, (let! nm := rd_name (len (utf8 nm)) in f nm) (utf8 nm ++ r) = f nm r) as N.
  { intros B f r. unfold rd_name. assert (u32 (len (utf8 nm)) c) as (_ & _ & _ & Hlt) by exact Hc.
    unfold bind at 1. unfold bind at 1. rewrite (reads_bytes (utf8 nm) (len (utf8 nm)) eq_refl) by lia. unfold lift. now rewrite utf8_roundtrip. }
  rewrite N. reflexivity.
Qed.
Lemma take_in_standard all : Forall (fun s => fst s = 0 -> enc_custom (snd s)) all ->
  forall md, take_in all md = take_in (filter (fun s => negb (fst s =? 0)) all) md.
Proof.
  induction 1 as [|s all Hs _ IH]; intros md; cbn [take_in filter]; [reflexivity|].
  destruct (fst s =? 0) eqn:E; cbn [negb take_in].
  - rewrite custom_nothing by (try apply Hs; lia). cbn. apply IH.
  - destruct (on_bytes _ _); cbn; auto.
Qed.
Lemma on_bytes_bind {A B} (p : R A) (f : A -> B) b a : reads p b a -> on_bytes (let! l := p in ret (f l)) b = Ok (f a).
Proof. intros H. unfold on_bytes, bind. specialize (H []). rewrite app_nil_r in H. now rewrite H. Qed.
Lemma take_part {A} id (Q : A -> list Z -> Prop) (p : R A) l ss (f : list A -> moddesc) md :
  part id Q l ss -> (forall x, vec Q l x -> reads (rd_vec p) x l) ->
  (rd_section id md = let! l := rd_vec p in ret (f l)) -> f [] = md -> take_in ss md = Ok (f l).
Proof.
  intros [[-> ->]|(x & -> & Hx)] Hp Hs H0; cbn [take_in fst snd].
  - now rewrite H0.
  - rewrite Hs, (on_bytes_bind _ f x l (Hp x Hx)). reflexivity.
Qed.
Lemma take_standard md ss : standard_sections md ss -> take_in ss md_empty = Ok md.
Proof.
  intros (ty & im & fn & tb & me & gl & ex & st & el & dc & co & da & -> & H1 & H2 & H3 & H4 & H5 & H6 & H7 & H8 & H9 & H10 & H11 & H12).
  destruct md as [mt mf mtb mm mg me' mda ms mi mx]. cbn in *. unfold md_empty. rewrite take_in_app.
  rewrite (take_part 1 enc_functype rd_functype mt ty (fun l => mkmd l [] [] [] [] [] [] (-1) [] []) _ H1);
    [|intros; eapply reads_vec; [apply enc_functype_nonnil|apply reads_functype|assumption]|reflexivity|reflexivity].
  cbn [rbind]. rewrite take_in_app.
  rewrite (take_part 2 enc_import rd_import mi im (fun l => mkmd mt [] [] [] [] [] [] (-1) l []) _ H2);
    [|intros; eapply reads_vec; [apply enc_import_nonnil|apply reads_import|assumption]|reflexivity|reflexivity].
  cbn [rbind]. rewrite take_in_app.
  assert (take_in fn (mkmd mt [] [] [] [] [] [] (-1) mi []) = Ok (mkmd mt (map stub mf) [] [] [] [] [] (-1) mi [])) as ->.
  { destruct H3 as [[-> ->]|(x & -> & Hx)]; [reflexivity|]. cbn [take_in fst snd].
    change (rd_section 3 _) with (let! l := rd_vec rd_func_type in ret (mkmd mt ([] ++ l) [] [] [] [] [] (-1) mi [])).
    rewrite (on_bytes_bind _ (fun l => mkmd mt ([] ++ l) [] [] [] [] [] (-1) mi []) x (map stub mf)); [reflexivity|]. now apply reads_func_types. }
  cbn [rbind]. rewrite take_in_app.
  rewrite (take_part 4 enc_tabletype rd_tabletype mtb tb (fun l => mkmd mt (map stub mf) l [] [] [] [] (-1) mi []) _ H4);
    [|intros; eapply reads_vec; [apply enc_tabletype_nonnil|apply reads_tabletype|assumption]|reflexivity|reflexivity].
  cbn [rbind]. rewrite take_in_app.
  rewrite (take_part 5 enc_limits rd_memtype mm me (fun l => mkmd mt (map stub mf) mtb l [] [] [] (-1) mi []) _ H5);
    [|intros; eapply reads_vec; [apply enc_limits_nonnil|apply reads_limits|assumption]|reflexivity|reflexivity].
  cbn [rbind]. rewrite take_in_app.
  rewrite (take_part 6 enc_global rd_global mg gl (fun l => mkmd mt (map stub mf) mtb mm l [] [] (-1) mi []) _ H6);
    [|intros; eapply reads_vec; [apply enc_global_nonnil|apply reads_global|assumption]|reflexivity|reflexivity].
  cbn [rbind]. rewrite take_in_app.
  rewrite (take_part 7 enc_export rd_export mx ex (fun l => mkmd mt (map stub mf) mtb mm mg [] [] (-1) mi l) _ H7);
    [|intros; eapply reads_vec; [apply enc_export_nonnil|apply reads_export|assumption]|reflexivity|reflexivity].
  cbn [rbind]. rewrite take_in_app.
  assert (take_in st (mkmd mt (map stub mf) mtb mm mg [] [] (-1) mi mx) = Ok (mkmd mt (map stub mf) mtb mm mg [] [] ms mi mx)) as ->.
  { destruct H8 as [[-> ->]|(x & -> & Hx)]; [reflexivity|]. cbn [take_in fst snd].
    change (rd_section 8 _) with (let! i := rd_u in ret (mkmd mt (map stub mf) mtb mm mg [] [] i mi mx)).
    rewrite (on_bytes_bind rd_u (fun i => mkmd mt (map stub mf) mtb mm mg [] [] i mi mx) x ms); [reflexivity|]. now apply reads_u. }
  cbn [rbind]. rewrite take_in_app.
  rewrite (take_part 9 enc_elem rd_elem me' el (fun l => mkmd mt (map stub mf) mtb mm mg l [] ms mi mx) _ H9);
    [|intros; eapply reads_vec; [apply enc_elem_nonnil|apply reads_elem|assumption]|reflexivity|reflexivity].
  cbn [rbind]. rewrite take_in_app.
  assert (forall md, take_in dc md = Ok md) as ->.
  { intros md. destruct H10 as [->|(k & x & -> & Hx)]; [reflexivity|]. cbn [take_in fst snd].
    replace (rd_section 12 md) with (let! _ := rd_u in ret md) by (now destruct md).
    rewrite (on_bytes_bind rd_u (fun _ => md) x k); [reflexivity|]. now apply reads_u. }
  cbn [rbind]. rewrite take_in_app.
  assert (take_in co (mkmd mt (map stub mf) mtb mm mg me' [] ms mi mx) = Ok (mkmd mt mf mtb mm mg me' [] ms mi mx)) as ->.
  { destruct H11 as [[-> ->]|(x & -> & Hx)]; [reflexivity|]. cbn [take_in fst snd].
    destruct Hx as (c & bs & Hc & Hbs & ->).
    unfold on_bytes, rd_section. cbn [Z.eqb Pos.eqb]. unfold bind at 1. rewrite (reads_u _ _ Hc). unfold bind at 1.
    pose proof (reads_codes mf bs [] (S (length (concat bs))) Hbs) as Hr. cbn [app] in Hr. specialize (Hr ltac:(
      pose proof (concat_len enc_func_code mf bs Hbs enc_func_code_nonnil); lia) []). rewrite app_nil_r in Hr.
    change (len (@nil funcdesc)) with 0 in Hr. now rewrite Hr. }
  cbn [rbind].
  rewrite (take_part 11 enc_data rd_data mda da (fun l => mkmd mt mf mtb mm mg me' l ms mi mx) _ H12);
    [|intros; eapply reads_vec; [apply enc_data_nonnil|apply reads_data|assumption]|reflexivity|reflexivity].
  reflexivity.
Qed.
Lemma module_header b : module_from_reader ([0x00; 0x61; 0x73; 0x6d; 0x01; 0x00; 0x00; 0x00] ++ b) = on_bytes (rd_sections 32 md_empty) b.
Proof.
  pose proof (reads_bytes [0x00; 0x61; 0x73; 0x6d] 4 eq_refl ltac:(lia) (0x01 :: 0x00 :: 0x00 :: 0x00 :: b)) as H1.
  pose proof (reads_bytes [0x01; 0x00; 0x00; 0x00] 4 eq_refl ltac:(lia) b) as H2. cbn [app] in H1, H2 |- *.
  unfold module_from_reader, on_bytes, rd_module. unfold bind at 1. rewrite H1.
  unfold bind at 1. cbn [zs_eqb Z.eqb Pos.eqb andb assert lift]. unfold bind at 1. rewrite H2. reflexivity.
Qed.
Lemma module_roundtrip all md b : enc_module all md b -> (length all <= 32)%nat -> module_from_reader b = Ok md.
Proof.
  intros (bs & Hs & Hc & Hb & ->) L. rewrite module_header, (sections_take_in all bs 32 md_empty Hb L), take_in_standard by exact Hc.
  now apply take_standard.
Qed.

Lemma part_length {A} id (Q : A -> list Z -> Prop) l ss : part id Q l ss -> (length ss <= 1)%nat.
Proof. intros [[_ ->]|(x & -> & _)]; cbn; lia. Qed.
Lemma standard_length md ss : standard_sections md ss -> (length ss <= 12)%nat.
Proof.
  intros (ty & im & fn & tb & me & gl & ex & st & el & dc & co & da & -> & H1 & H2 & H3 & H4 & H5 & H6 & H7 & H8 & H9 & H10 & H11 & H12).
  apply part_length in H1, H2, H3, H4, H5, H6, H7, H9, H11, H12.
  assert (length st <= 1)%nat by (destruct H8 as [[_ ->]|(x & -> & _)]; cbn; lia).
  assert (length dc <= 1)%nat by (destruct H10 as [->|(k & x & -> & _)]; cbn; lia).
  rewrite !app_length. lia.
Qed.
Lemma filter_all {A} (f : A -> bool) l : Forall (fun x => f x = true) l -> filter f l = l.
Proof. induction 1 as [|x l Hx _ IH]; cbn; [reflexivity|]. now rewrite Hx, IH. Qed.
Lemma module_roundtrip_plain all md b : enc_module all md b -> Forall (fun s => fst s <> 0) all -> module_from_reader b = Ok md.
Proof.
  intros H Ha. apply (module_roundtrip all); [exact H|]. destruct H as (bs & Hs & _). rewrite filter_all in Hs.
  - apply standard_length in Hs. lia.
  - eapply Forall_impl; [|exact Ha]. cbn. intros s Hn. destruct (fst s =? 0) eqn:E; [lia|reflexivity].
Qed.

(* ---- what an accepted module consists of ---- *)
Definition framed (s : section) (b : list Z) : Prop :=
  exists c, group c /\ base128 c = len (snd s) /\ b = fst s :: c ++ snd s.
Lemma rd_u_group r n r' : bytes r -> rd_u r = (Ok n, r') -> exists c, group c /\ base128 c = n /\ r = c ++ r'.
Proof.
  intros Hb E. unfold rd_u in E. destruct (u_reader_total r Hb) as [(g & rest & -> & Hg & Eg)|(_ & e & Ee)].
  - rewrite Eg in E. injection E as <- <-. eauto.
  - rewrite Ee in E. discriminate.
Qed.
Lemma rd_bytes_split n r b r' : rd_bytes n r = (Ok b, r') -> r = b ++ r'.
Proof. unfold rd_bytes. destruct (_ >=? _); [discriminate|]. intros E. injection E as <- <-. now rewrite firstn_skipn. Qed.
Lemma sections_framed k : forall md r md' r', bytes r -> rd_sections k md r = (Ok md', r') ->
  exists ss bs, Forall2 framed ss bs /\ r = concat bs ++ r' /\ (length ss <= k)%nat /\ (r' = [] \/ length ss = k).
Proof.
  induction k as [|k IH]; intros md r md' r' Hr E; cbn [rd_sections] in E.
  - injection E as <- <-. exists [], []. cbn. auto.
  - destruct r as [|id r]; [injection E as <- <-; exists [], []; cbn; repeat split; auto; lia|].
    inversion Hr as [|? ? _ Hr']; subst. unfold bind in E. destruct (rd_u r) as [[n|e] r1] eqn:Eu; [|discriminate].
    destruct (rd_u_group _ _ _ Hr' Eu) as (c & Hc & Hn & ->).
    destruct (rd_bytes n r1) as [[b|e] r2] eqn:Eb; [|discriminate]. pose proof (rd_bytes_split _ _ _ _ Eb) as ->.
    unfold assert, lift, py_assert in E. destruct (len b =? n) eqn:El; [|discriminate].
    destruct (on_bytes (rd_section id md) b) as [md1|e]; [|discriminate].
    apply Forall_app in Hr' as [_ Hr']. apply Forall_app in Hr' as [_ Hr'].
    destruct (IH _ _ _ _ Hr' E) as (ss & bs & H1 & -> & H2 & H3). exists ((id, b) :: ss), ((id :: c ++ b) :: bs).
    split; [constructor; [exists c; cbn; repeat split; auto; lia|exact H1]|]. split; [cbn; now rewrite <- !app_assoc|].
    split; [cbn; lia|]. destruct H3 as [->| <-]; cbn; auto.
Qed.
Lemma zs_eqb_eq a : forall b, zs_eqb a b = true -> a = b.
Proof.
  induction a as [|x a IH]; intros [|y b] H; cbn in H; try discriminate; [reflexivity|].
  apply andb_true_iff in H as [H1 H2]. f_equal; [lia|auto].
Qed.
Lemma module_framed b md : bytes b -> module_from_reader b = Ok md ->
  exists ss bs rest, b = [0x00; 0x61; 0x73; 0x6d; 0x01; 0x00; 0x00; 0x00] ++ concat bs ++ rest /\ Forall2 framed ss bs /\
    (rest = [] \/ length ss = 32%nat).
Proof.
  intros Hb E. unfold module_from_reader, on_bytes, rd_module in E. unfold bind at 1 in E.
  destruct (rd_bytes 4 b) as [[h|e] r1] eqn:E1; [|discriminate]. apply rd_bytes_split in E1 as ->. apply Forall_app in Hb as [_ Hb].
  unfold bind at 1, assert at 1, lift at 1, py_assert in E. destruct (zs_eqb h _) eqn:Eh; [|discriminate]. apply zs_eqb_eq in Eh as ->.
  unfold bind at 1 in E. destruct (rd_bytes 4 r1) as [[h|e] r2] eqn:E1; [|discriminate]. apply rd_bytes_split in E1 as ->. apply Forall_app in Hb as [_ Hb].
  unfold bind at 1, assert, lift, py_assert in E. destruct (zs_eqb h _) eqn:Eh; [|discriminate]. apply zs_eqb_eq in Eh as ->.
  destruct (rd_sections 32 md_empty r2) as [[md'|e] r3] eqn:E3; [|discriminate].
  destruct (sections_framed _ _ _ _ _ Hb E3) as (ss & bs & H1 & -> & H2 & H3). exists ss, bs, r3. auto.
Qed.
(* the code section: no more bodies than functions *)
Lemma codes_count f : forall n i fs r fs' r', 0 <= i -> rd_codes f n i fs r = (Ok fs', r') -> n <= 0 \/ i + n <= len fs.
Proof.
  induction f as [|f IH]; intros n i fs r fs' r' Hi E; [discriminate|]. cbn [rd_codes] in E.
  destruct (n <=? 0) eqn:En; [left; lia|]. right. unfold bind in E.
  destruct (rd_u r) as [[s|e] r1]; [|discriminate]. destruct (rd_bytes s r1) as [[b|e] r2]; [|discriminate].
  unfold lift in E. destruct (on_bytes rd_func_code b) as [d|e]; [|discriminate]. destruct (py_index fs i) as [fd|e]; [|discriminate].
  destruct (py_setitem fs i _) as [fs1|e] eqn:Es; [|discriminate]. apply IH in E; [|lia].
  unfold py_setitem in Es. destruct (i <? 0) eqn:E0; [lia|]. cbv zeta in Es. rewrite E0 in Es. cbn [orb] in Es.
  destruct (len fs <=? i) eqn:E2; [discriminate|]. injection Es as <-.
  assert (len (upd fs (Z.to_nat i) (mkfd (fd_type fd) (fd_locals d) (fd_expr d))) = len fs) as El by (unfold len; now rewrite upd_length). rewrite El in E. lia.
Qed.
Lemma code_section_count md r md' r' : bytes r -> rd_section 10 md r = (Ok md', r') ->
  exists c rest, r = c ++ rest /\ group c /\ base128 c <= len (md_func md).
Proof.
  intros Hr E. destruct md as [ty fn tb me gl el da st im ex]. unfold rd_section in E. cbn [Z.eqb Pos.eqb] in E. unfold bind in E.
  destruct (rd_u r) as [[n|e] r1] eqn:Eu; [|discriminate]. destruct (rd_u_group _ _ _ Hr Eu) as (c & Hc & Hn & ->).
  destruct (rd_codes _ n 0 fn r1) as [[fs|e] r2] eqn:Ec; [|discriminate]. apply codes_count in Ec; [|lia].
  exists c, r1. split; [reflexivity|]. split; [exact Hc|]. cbn. unfold len in *. lia.
Qed.

(* ---- integers out of range, cut-off data ---- *)
Lemma group_len c : group c -> 1 <= len c.
Proof. intros H. apply group_nonnil in H. destruct c; [easy|]. unfold len. cbn. lia. Qed.
Lemma len_two {A} (x y : A) l : len (x :: y :: l) = len l + 2.
Proof. unfold len. cbn [length]. lia. Qed.
Lemma memory_any_number e : group e -> len e <= 100 ->
  module_from_reader ([0x00; 0x61; 0x73; 0x6d; 0x01; 0x00; 0x00; 0x00] ++ [0x05; len e + 2; 0x01; 0x00] ++ e) =
    Ok (mkmd [] [] [] [mklim (base128 e) 0] [] [] [] (-1) [] []).
Proof.
  intros Hg Hl. rewrite module_header. pose proof (group_len e Hg). cbn [app]. unfold on_bytes, rd_sections at 1; fold rd_sections.
  unfold bind at 1. pose proof (reads_u (len e + 2) [len e + 2] (u32_byte (len e + 2) ltac:(lia)) (0x01 :: 0x00 :: e)) as E1. cbn [app] in E1. rewrite E1.
  unfold bind at 1. pose proof (reads_bytes (0x01 :: 0x00 :: e) (len e + 2) (len_two _ _ e) ltac:(lia) []) as E2.
  rewrite app_nil_r in E2. rewrite E2. unfold bind at 1, assert, lift at 1, py_assert.
  replace (len (0x01 :: 0x00 :: e) =? len e + 2) with true by (symmetry; apply Z.eqb_eq; unfold len; cbn [length]; lia).
  assert (reads (rd_section 5 md_empty) (0x01 :: 0x00 :: e) (mkmd [] [] [] [mklim (base128 e) 0] [] [] [] (-1) [] [])) as E3.
  { unfold rd_section, md_empty. cbn [Z.eqb Pos.eqb]. eapply reads_then; [|apply reads_ret]. unfold rd_vec.
    apply (reads_bind rd_u _ [1] (0 :: e) 1); [apply reads_u, u32_byte; lia|]. intros rest. unfold rd_times, rd_memtype.
    cbn [app length times]. cbn [Z.leb Z.compare]. unfold bind at 1. unfold rd_limits at 1. unfold bind at 1. cbn [rd_ord].
    unfold bind at 1. unfold rd_u. rewrite u_reader_group by exact Hg. cbn [negb Z.eqb]. unfold bind at 1, ret at 1. unfold bind at 1.
    destruct (length (e ++ rest)); reflexivity. }
  unfold bind, lift, on_bytes. specialize (E3 []). rewrite app_nil_r in E3. rewrite E3. reflexivity.
Qed.
