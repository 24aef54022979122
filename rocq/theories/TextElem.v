(** Reading back the text of the generated files. *)

From Coq Require Import ZArith List Ascii String Bool Lia DecimalString DecimalFacts DecimalN Decimal.
From Verif Require Import CSem Spec Loops TableSpec ModelGen ModelText SpecC.
Import ListNotations.
Open Scope string_scope.
Open Scope Z_scope.

Notation B := ((Base, false) : lstate).

Lemma sapp_assoc (a b c : string) : (a ++ b) ++ c = a ++ (b ++ c).
Proof. induction a as [|x a IH]; [reflexivity|]. cbn. now rewrite IH. Qed.

Lemma sapp_nil (a : string) : a ++ "" = a.
Proof. induction a as [|x a IH]; [reflexivity|]. cbn. now rewrite IH. Qed.

(** ** The lexer, piece by piece *)
Lemma run_app s a b :
  run s (a ++ b) = (let (s1, l1) := run s a in let (s2, l2) := run s1 b in (s2, l1 ++ l2)%list).
Proof.
  revert s. induction a as [|x a IH]; intros s.
  - cbn. destruct (run s b). reflexivity.
  - cbn [append run]. destruct (step s x) as [s1 l1]. rewrite IH.
    destruct (run s1 a) as [s2 l2]. destruct (run s2 b) as [s3 l3]. now rewrite app_assoc.
Qed.

Fixpoint all_chars (p : ascii -> bool) (s : string) : bool :=
  match s with EmptyString => true | String c s => p c && all_chars p s end.

Lemma run_word w d s : all_chars is_word s = true -> run (InWord w, d) s = ((InWord (w ++ s), d), []).
Proof.
  revert w. induction s as [|c s IH]; intros w H.
  - cbn. now rewrite sapp_nil.
  - cbn [all_chars] in H. apply andb_true_iff in H. destruct H as [Hc Hs].
    cbn [run step]. rewrite Hc. rewrite IH by exact Hs. rewrite sapp_assoc. reflexivity.
Qed.

Lemma is_word_not c : is_word c = true -> Ascii.eqb c nl = false /\ is_space c = false.
Proof.
  destruct c as [b0 b1 b2 b3 b4 b5 b6 b7].
  destruct b0, b1, b2, b3, b4, b5, b6, b7; vm_compute; intros H; (discriminate H || split; reflexivity).
Qed.

Lemma run_word_base d s : s <> "" -> all_chars is_word s = true -> run (Base, d) s = ((InWord s, d), []).
Proof.
  intros Hne H. destruct s as [|c s]; [congruence|]. cbn [all_chars] in H. apply andb_true_iff in H. destruct H as [Hc Hs].
  cbn [run step]. unfold step_base. destruct (is_word_not c Hc) as [-> ->]. rewrite Hc.
  rewrite run_word by exact Hs. reflexivity.
Qed.

Lemma run_flush w d c s : is_word c = false ->
  run (InWord w, d) (String c s) = (let (st, l) := run (Base, d) (String c s) in (st, Word w :: l)).
Proof.
  intros H. cbn [run step]. rewrite H. destruct (step_base d c) as [s1 l1].
  destruct (run s1 s) as [s2 l2]. reflexivity.
Qed.

Lemma run_comment_plain d s : all_chars is_word s = true -> run (Comment, d) s = ((Comment, d), []).
Proof.
  induction s as [|c s IH]; intros H; [reflexivity|].
  cbn [all_chars] in H. apply andb_true_iff in H. destruct H as [Hc Hs].
  cbn [run step]. destruct (Ascii.eqb_spec c "*") as [->|]; [discriminate Hc|]. rewrite IH by exact Hs. reflexivity.
Qed.

Lemma run_spaces d k : run (Base, d) (spaces k) = ((Base, d), []).
Proof. induction k as [|k IH]; [reflexivity|]. cbn. rewrite IH. reflexivity. Qed.

(** ** Decimal numbers *)
Lemma digit_word s : all_chars is_digit s = true -> all_chars is_word s = true.
Proof.
  induction s as [|c s IH]; intros H; [reflexivity|]. cbn [all_chars] in *. apply andb_true_iff in H.
  destruct H as [Hc Hs]. rewrite IH by exact Hs. unfold is_word. rewrite Hc. reflexivity.
Qed.

Lemma uint_digits d : all_chars is_digit (NilEmpty.string_of_uint d) = true.
Proof. induction d; cbn [NilEmpty.string_of_uint all_chars]; rewrite ?IHd; reflexivity. Qed.

Lemma fmt_digits z : all_chars is_digit (fmt_u z) = true.
Proof.
  unfold fmt_u, NilZero.string_of_uint. destruct (N.to_uint (Z.to_N z)) eqn:E; [reflexivity|..]; apply uint_digits.
Qed.

Lemma fmt_word z : all_chars is_word (fmt_u z) = true.
Proof. apply digit_word, fmt_digits. Qed.

Lemma fmt_nonempty z : fmt_u z <> "".
Proof. unfold fmt_u, NilZero.string_of_uint. destruct (N.to_uint (Z.to_N z)); discriminate. Qed.

Lemma to_uint_norm n : unorm (N.to_uint n) = N.to_uint n.
Proof. rewrite <- Unsigned.to_of. rewrite Unsigned.of_to. reflexivity. Qed.

Lemma number_fmt z : 0 <= z -> number (fmt_u z) = Some z.
Proof.
  intros Hz. unfold fmt_u.
  assert (HU : NilZero.uint_of_string (NilZero.string_of_uint (N.to_uint (Z.to_N z))) = Some (N.to_uint (Z.to_N z))).
  { apply NilZero.usu. intros E. assert (H := to_uint_norm (Z.to_N z)). rewrite E in H. discriminate H. }
  assert (HV : option_map Z.of_uint (Some (N.to_uint (Z.to_N z))) = Some z).
  { cbn [option_map]. f_equal. unfold Z.of_uint.
    change (Z.of_N (N.of_uint (N.to_uint (Z.to_N z))) = z). rewrite Unsigned.of_to. lia. }
  destruct (N.to_uint (Z.to_N z)) as [|d|d|d|d|d|d|d|d|d|d] eqn:E;
    try (unfold number; cbn [NilZero.string_of_uint NilEmpty.string_of_uint] in HU |- *; rewrite HU; exact HV).
  (* a leading zero: only the number 0 *)
  assert (H := to_uint_norm (Z.to_N z)). rewrite E in H. unfold unorm in H. cbn [nzhead] in H.
  destruct (nzhead d) eqn:En; try discriminate H.
  - injection H as <-. vm_compute in HV |- *. exact HV.
  - exfalso. exact (nzhead_nonzero d _ En).
Qed.

(** ** Segments of text *)

Lemma seg_app a b la lb : run B a = (B, la) -> run B b = (B, lb) -> run B (a ++ b) = (B, (la ++ lb)%list).
Proof. intros Ha Hb. rewrite run_app, Ha, Hb. reflexivity. Qed.

(** [wspan s]: the word at the start of [s], and the rest *)
Fixpoint wspan (s : string) : string * string :=
  match s with
  | EmptyString => ("", "")
  | String c s' => if is_word c then (String c (fst (wspan s')), snd (wspan s')) else ("", s)
  end.

(** One step of the lexer on a concatenation: literals are computed, decimal
    numbers and names extend the current word. *)
Ltac lx1 :=
  match goal with
  | H : run ?s ?a = _ |- context [run ?s ?a] => rewrite H
  | |- context [run ?s ?a] =>
      lazymatch a with
      | append ?x ?y => rewrite (run_app s x y)
      | spaces _ => rewrite run_spaces
      | fmt_u _ =>
          lazymatch s with
          | (Base, _) => rewrite (run_word_base _ a (fmt_nonempty _) (fmt_word _))
          | (InWord _, _) => rewrite (run_word _ _ a (fmt_word _))
          | (Comment, _) => rewrite (run_comment_plain _ a (fmt_word _))
          end
      | String _ _ =>
          lazymatch s with
          | (InWord _, _) =>
              let w := eval vm_compute in (fst (wspan a)) in
              let r := eval vm_compute in (snd (wspan a)) in
              lazymatch w with
              | EmptyString => rewrite run_flush by reflexivity
              | _ =>
                  lazymatch r with
                  | EmptyString => rewrite (run_word _ _ a) by reflexivity
                  | _ => change (run s a) with (run s (w ++ r))
                  end
              end
          | _ => let v := eval vm_compute in (run s a) in change (run s a) with v
          end
      | _ =>
          lazymatch s with
          | (InWord _, _) => rewrite (run_word _ _ a) by assumption
          end
      end
  end.
Ltac lx := repeat (lx1; cbv iota beta); cbn [List.app]; rewrite ?sapp_assoc.

Definition name_of (prefix : string) (n : Z) (name : string) : string := prefix ++ fmt_u n ++ "_" ++ name.

Lemma run_comment_text what : all_chars (fun c => negb (Ascii.eqb c "*")) what = true ->
  run B (comment_text what) = (B, []).
Proof.
  intros H. unfold comment_text, eol.
  assert (HC : forall s, all_chars (fun c => negb (Ascii.eqb c "*")) s = true -> run (Comment, false) s = ((Comment, false), [])).
  { induction s as [|c s IH]; intros Hs; [reflexivity|]. cbn [all_chars] in Hs. apply andb_true_iff in Hs.
    destruct Hs as [Hc Hs]. cbn [run step]. destruct (Ascii.eqb c "*"); [discriminate Hc|]. rewrite IH by exact Hs. reflexivity. }
  rewrite run_app. change (run B "/*") with ((Comment, false), @nil token). cbv iota beta.
  rewrite run_app. change (run (Comment, false) (String "010" "")) with ((Comment, false), @nil token). cbv iota beta.
  rewrite run_app. change (run (Comment, false) " * ") with ((Comment, false), @nil token). cbv iota beta.
  rewrite run_app, (HC what H). cbv iota beta. vm_compute. reflexivity.
Qed.

Lemma run_header q n T : run B (header_text q n T) = (B, []).
Proof. unfold header_text, eol. lx. reflexivity. Qed.

Lemma run_red_header q k n T : run B (red_header_text q k n T) = (B, []).
Proof. unfold red_header_text, eol. lx. reflexivity. Qed.

Definition param_toks (prefix name : string) (n v : Z) : list token :=
  [Word "static"; Word "const"; Word "int32_t"; Word (name_of prefix n name); Punct "="; Word (fmt_u v); Punct ";"].

Lemma run_param name n v : all_chars is_word name = true -> run B (param_text name n v) = (B, param_toks "ntt" name n v).
Proof. intros Hn. unfold param_text, eol. lx. reflexivity. Qed.

Lemma run_red_param name n v : all_chars is_word name = true -> run B (red_param_text name n v) = (B, param_toks "ntt_red" name n v).
Proof. intros Hn. unfold red_param_text, eol. lx. reflexivity. Qed.

Definition decl_toks (ty prefix name : string) (n : Z) : list token :=
  [Word "extern"; Word "const"; Word ty; Word (name_of prefix n name); Punct "["; Word (fmt_u n); Punct "]"; Punct ";"].

Lemma run_decl name n : all_chars is_word name = true -> run B (decl_text name n) = (B, decl_toks "uint16_t" "ntt" name n).
Proof. intros Hn. unfold decl_text, eol. lx. reflexivity. Qed.

Lemma run_red_decl name n : all_chars is_word name = true -> run B (red_decl_text name n) = (B, decl_toks "int16_t" "ntt_red" name n).
Proof. intros Hn. unfold red_decl_text, eol. lx. reflexivity. Qed.

(** ** Tables of numbers *)
Definition num_toks (v : Z) : list token :=
  if v <? 0 then [Punct "-"; Word (fmt_u (- v)); Punct ","] else [Word (fmt_u v); Punct ","].

Lemma run_num_d v : run B (" " ++ width5 (fmt_d v) ++ ",") = (B, num_toks v).
Proof.
  unfold width5, num_toks. rewrite run_app. change (run B " ") with (B, @nil token). cbv iota beta.
  rewrite run_app, run_app, run_spaces. cbv iota beta. unfold fmt_d.
  destruct (v <? 0); lx; reflexivity.
Qed.

Lemma run_num_u v : 0 <= v -> run B (" " ++ width5 (fmt_u v) ++ ",") = (B, num_toks v).
Proof.
  intros H. unfold width5, num_toks. rewrite run_app. change (run B " ") with (B, @nil token). cbv iota beta.
  rewrite run_app, run_app, run_spaces. cbv iota beta.
  destruct (Z.ltb_spec v 0); [lia|]. lx. reflexivity.
Qed.

Lemma print_entries_ok entry a n :
  (forall v, In v a -> run B (" " ++ entry v ++ ",") = (B, num_toks v)) ->
  zlen a = n -> n <= 2147483648 ->
  exists t, print_entries entry a n = Ok t /\ run B t = (B, flat_map num_toks a).
Proof.
  intros He Hl Hn. cbv beta delta [print_entries].
  assert (Hn0 : 0 <= n) by (rewrite <- Hl; apply zlen_nonneg).
  destruct (cfor_count (fun c (st : Z * string) => 0 <= fst st < 8 /\ run B (snd st) = (B, flat_map num_toks (firstn (Z.to_nat c) a)))
    n (fun c => c) (fun i => i <? n) (fun i => u32 (i + 1))
    (fun i (st : Z * string) =>
      let (k, t) := st in
      let t := if k =? 0 then t ++ "   " else t in
      do x <- rd a i;
      let t := t ++ " " ++ entry x ++ "," in
      let k := u32 (k + 1) in
      if k =? 8 then Ok (0, t ++ eol) else Ok (k, t))) with (f := fuel n) (i0 := 0) (st := (0, "") : Z * string)
    as ([k t] & E & Hk & Ht).
  - exact Hn0.
  - intros c Hc. apply Z.ltb_lt. lia.
  - apply Z.ltb_irrefl.
  - intros c Hc. apply u32_small. lia.
  - intros c [k t] Hc [Hk Ht]. cbn [fst snd] in Hk, Ht.
    rewrite rd_ok by lia. cbn [bind].
    assert (Hv : In (at_ a c) a) by (apply nth_In; unfold zlen in Hl; lia).
    assert (HF : firstn (Z.to_nat (c + 1)) a = (firstn (Z.to_nat c) a ++ [at_ a c])%list).
    { replace (Z.to_nat (c + 1)) with (S (Z.to_nat c)) by lia. unfold at_. clear - Hc Hl.
      assert (HL : (Z.to_nat c < List.length a)%nat) by (unfold zlen in Hl; lia). revert HL.
      generalize (Z.to_nat c). clear. induction a as [|x a IH]; intros m Hm; cbn [List.length] in Hm; [lia|].
      destruct m; [reflexivity|].
      change (x :: firstn (S m) a = x :: (firstn m a ++ [nth m a 0%Z]))%list. f_equal. apply IH. lia. }
    set (t0 := if k =? 0 then t ++ "   " else t).
    assert (H0 : run B t0 = (B, flat_map num_toks (firstn (Z.to_nat c) a))).
    { unfold t0. destruct (k =? 0); [|exact Ht]. rewrite <- (List.app_nil_r (flat_map _ _)). apply seg_app; [exact Ht|reflexivity]. }
    assert (H1 : run B (t0 ++ " " ++ entry (at_ a c) ++ ",") = (B, flat_map num_toks (firstn (Z.to_nat (c + 1)) a))).
    { rewrite HF, flat_map_app. cbn [flat_map]. rewrite List.app_nil_r. apply seg_app; [exact H0|apply He; exact Hv]. }
    cbv zeta. rewrite u32_small by lia.
    destruct (Z.eqb_spec (k + 1) 8); eexists; (split; [reflexivity|]); cbn [fst snd]; (split; [lia|]).
    + rewrite <- (List.app_nil_r (flat_map _ _)). apply seg_app; [exact H1|reflexivity].
    + exact H1.
  - reflexivity.
  - unfold fuel. lia.
  - cbn [fst snd]. split; [lia|reflexivity].
  - rewrite E. cbn [bind]. eexists. split; [reflexivity|]. cbn [fst snd] in Ht.
    rewrite firstn_all2 in Ht by (unfold zlen in Hl; lia).
    destruct (0 <? k); [|exact Ht]. rewrite <- (List.app_nil_r (flat_map _ _)). apply seg_app; [exact Ht|reflexivity].
Qed.

Definition table_toks (ty prefix name : string) (n : Z) (a : list Z) : list token :=
  ([Word "const"; Word ty; Word (name_of prefix n name); Punct "["; Word (fmt_u n); Punct "]"; Punct "="; Punct "{"]
   ++ flat_map num_toks a ++ [Punct "}"; Punct ";"])%list.

Lemma table_text_ok name a n : all_chars is_word name = true ->
  zlen a = n -> n <= 2147483648 -> (forall v, In v a -> 0 <= v) ->
  exists t, table_text name a n = Ok t /\ run B t = (B, table_toks "uint16_t" "ntt" name n a).
Proof.
  intros Hname Hl Hn Hp. unfold table_text.
  destruct (print_entries_ok (fun x => width5 (fmt_u x)) a n) as (t & E & Ht); [|exact Hl|exact Hn|].
  { intros v Hv. apply run_num_u. apply Hp. exact Hv. }
  rewrite E. cbn [bind]. eexists. split; [reflexivity|]. unfold eol, table_toks. lx. reflexivity.
Qed.

Lemma red_table_text_ok name a n : all_chars is_word name = true ->
  zlen a = n -> n <= 2147483648 ->
  exists t, red_table_text name a n = Ok t /\ run B t = (B, table_toks "int16_t" "ntt_red" name n a).
Proof.
  intros Hname Hl Hn. unfold red_table_text.
  destruct (print_entries_ok (fun x => width5 (fmt_d x)) a n) as (t & E & Ht); [|exact Hl|exact Hn|].
  { intros v Hv. apply run_num_d. }
  rewrite E. cbn [bind]. eexists. split; [reflexivity|]. unfold eol, table_toks. lx. reflexivity.
Qed.

(** ** From tokens to items *)
Inductive reads : list token -> list item -> Prop :=
| reads_nil : reads [] []
| reads_cons l i r is : one_item l = Some (i, r) -> (List.length r < List.length l)%nat -> reads r is -> reads l (i :: is).

Lemma items_mono f f' l is : items f l = Some is -> (f <= f')%nat -> items f' l = Some is.
Proof.
  revert f' l is. induction f as [|f IH]; intros f' l is H Hf.
  - destruct l; [destruct f'; exact H|discriminate H].
  - destruct f'; [lia|]. destruct l as [|t l]; [exact H|]. cbn [items] in H |- *.
    destruct (one_item (t :: l)) as [[i r]|]; [|discriminate H].
    destruct (items f r) as [is'|] eqn:E; [|discriminate H]. rewrite (IH f' r is' E) by lia. exact H.
Qed.

Lemma reads_items l is : reads l is -> items (List.length l) l = Some is.
Proof.
  induction 1 as [|l i r is H HL HR IH]; [reflexivity|].
  destruct l as [|t l]; [cbn in HL; lia|]. cbn [List.length items]. rewrite H.
  rewrite (items_mono _ (List.length l) r is IH) by (cbn [List.length] in HL; lia). reflexivity.
Qed.

Lemma reads_c t l is : run B t = (B, l) -> reads l is -> read_c t = Some is.
Proof. intros H HR. unfold read_c, lex. rewrite H. apply reads_items. exact HR. Qed.

Definition dir_toks (d : list token) : list token := (Punct "#" :: d ++ [Eol])%list.

Lemma until_eol_ok d r : Forall (fun t => t <> Eol) d -> until_eol (d ++ Eol :: r) = Some (d, r).
Proof.
  induction 1 as [|t d Ht Hd IH]; [reflexivity|]. destruct t as [w|c|]; [| |congruence].
  - change (match until_eol (d ++ Eol :: r)%list with Some (d', r') => Some (Word w :: d', r') | None => None end = Some (Word w :: d, r)).
    rewrite IH. reflexivity.
  - change (match until_eol (d ++ Eol :: r)%list with Some (d', r') => Some (Punct c :: d', r') | None => None end = Some (Punct c :: d, r)).
    rewrite IH. reflexivity.
Qed.

Lemma reads_dir d r is : Forall (fun t => t <> Eol) d -> reads r is -> reads (dir_toks d ++ r) (Directive d :: is).
Proof.
  intros Hd HR. apply (reads_cons _ _ r); [|unfold dir_toks; rewrite app_length; cbn [List.length]; lia|exact HR].
  unfold dir_toks. rewrite <- app_comm_cons, <- List.app_assoc.
  change (match until_eol (d ++ Eol :: r)%list with Some (d, r') => Some (Directive d, r') | None => None end = Some (Directive d, r)).
  rewrite until_eol_ok by exact Hd. reflexivity.
Qed.

Lemma reads_param prefix name n v r is : 0 <= v -> reads r is ->
  reads (param_toks prefix name n v ++ r) (Constant "int32_t" (name_of prefix n name) v :: is).
Proof.
  intros Hv HR. apply (reads_cons _ _ r); [|unfold param_toks; rewrite app_length; cbn [List.length]; lia|exact HR].
  unfold param_toks. cbn [List.app]. cbn [one_item]. change (("static" =? "static")%string && ("const" =? "const")%string) with true.
  cbv iota. rewrite number_fmt by exact Hv. reflexivity.
Qed.

Lemma reads_decl ty prefix name n r is : reads r is ->
  reads (decl_toks ty prefix name n ++ r) (Extern ty (name_of prefix n name) [Word (fmt_u n)] :: is).
Proof.
  intros HR. apply (reads_cons _ _ r); [reflexivity|unfold decl_toks; rewrite app_length; cbn [List.length]; lia|exact HR].
Qed.

Lemma numbers_ok a r : numbers (flat_map num_toks a ++ Punct "}" :: r) = Some (a, r).
Proof.
  induction a as [|v a IH]; [reflexivity|]. cbn [flat_map]. rewrite <- List.app_assoc. unfold num_toks at 1.
  destruct (Z.ltb_spec v 0); cbn [List.app numbers]; rewrite number_fmt by lia; rewrite IH; [|reflexivity].
  repeat f_equal. lia.
Qed.

Lemma reads_table ty prefix name n a r is : reads r is ->
  reads (table_toks ty prefix name n a ++ r) (Table ty (name_of prefix n name) [Word (fmt_u n)] (Numbers a) :: is).
Proof.
  intros HR. apply (reads_cons _ _ r); [|unfold table_toks; rewrite app_length; cbn [List.app List.length]; lia|exact HR].
  unfold table_toks. rewrite <- List.app_assoc. cbn [List.app]. rewrite <- List.app_assoc. cbn [List.app].
  cbn [one_item]. change (("const" =? "const")%string) with true. cbv iota. cbn [dims].
  cbn [initializer]. rewrite numbers_ok. reflexivity.
Qed.

(** ** The whole files *)
Ltac lxf1 :=
  match goal with
  | |- context [run (Base, false) (header_text ?q ?n ?T)] => rewrite (run_header q n T)
  | |- context [run (Base, false) (red_header_text ?q ?k ?n ?T)] => rewrite (run_red_header q k n T)
  | |- context [run (Base, false) (comment_text ?w)] => rewrite (run_comment_text w) by reflexivity
  | |- context [run (Base, false) (param_text ?a ?n ?v)] => rewrite (run_param a n v) by reflexivity
  | |- context [run (Base, false) (red_param_text ?a ?n ?v)] => rewrite (run_red_param a n v) by reflexivity
  | |- context [run (Base, false) (decl_text ?a ?n)] => rewrite (run_decl a n) by reflexivity
  | |- context [run (Base, false) (red_decl_text ?a ?n)] => rewrite (run_red_decl a n) by reflexivity
  | _ => lx1
  end.
Ltac lxf := repeat (lxf1; cbv iota beta); cbn [List.app]; rewrite ?sapp_assoc.

Definition guard_toks (g : string) : list token :=
  (dir_toks [Word "ifndef"; Word g] ++ dir_toks [Word "define"; Word g]
   ++ dir_toks [Word "include"; Punct "<"; Word "stdint"; Punct "."; Word "h"; Punct ">"])%list.

Lemma run_tables_h q n T : run B (tables_h q n T) = (B,
  guard_toks ("__NTT" ++ fmt_u n ++ "_TABLES_H")
  ++ param_toks "ntt" "psi" n (t_psi T)
  ++ param_toks "ntt" "omega" n (t_omega T)
  ++ param_toks "ntt" "inv_psi" n (t_inv_psi T)
  ++ param_toks "ntt" "inv_omega" n (t_inv_omega T)
  ++ param_toks "ntt" "inv_n" n (t_inv_n T)
  ++ decl_toks "uint16_t" "ntt" "psi_powers" n
  ++ decl_toks "uint16_t" "ntt" "inv_psi_powers" n
  ++ decl_toks "uint16_t" "ntt" "scaled_inv_psi_powers" n
  ++ decl_toks "uint16_t" "ntt" "omega_powers" n
  ++ decl_toks "uint16_t" "ntt" "omega_powers_rev" n
  ++ decl_toks "uint16_t" "ntt" "inv_omega_powers" n
  ++ decl_toks "uint16_t" "ntt" "inv_omega_powers_rev" n
  ++ decl_toks "uint16_t" "ntt" "mixed_powers" n
  ++ decl_toks "uint16_t" "ntt" "mixed_powers_rev" n
  ++ decl_toks "uint16_t" "ntt" "inv_mixed_powers" n
  ++ decl_toks "uint16_t" "ntt" "inv_mixed_powers_rev" n
  ++ dir_toks [Word "endif"])%list.
Proof. unfold tables_h, eol. lxf. reflexivity. Qed.

Lemma run_red_tables_h q k n T : run B (red_tables_h q k n T) = (B,
  guard_toks ("__NTT_RED" ++ fmt_u n ++ "_TABLES_H")
  ++ param_toks "ntt_red" "psi" n (r_psi T)
  ++ param_toks "ntt_red" "omega" n (r_omega T)
  ++ param_toks "ntt_red" "inv_psi" n (r_inv_psi T)
  ++ param_toks "ntt_red" "inv_omega" n (r_inv_omega T)
  ++ param_toks "ntt_red" "inv_n" n (r_inv_n T)
  ++ param_toks "ntt_red" "inv_k" n (r_inv_k T)
  ++ param_toks "ntt_red" "rescale8" n (rescale8 T)
  ++ param_toks "ntt_red" "rescale6" n (rescale6 T)
  ++ decl_toks "int16_t" "ntt_red" "psi_powers" n
  ++ decl_toks "int16_t" "ntt_red" "inv_psi_powers" n
  ++ decl_toks "int16_t" "ntt_red" "scaled_inv_psi_powers" n
  ++ decl_toks "int16_t" "ntt_red" "scaled_inv_psi_powers_var" n
  ++ decl_toks "int16_t" "ntt_red" "omega_powers" n
  ++ decl_toks "int16_t" "ntt_red" "omega_powers_rev" n
  ++ decl_toks "int16_t" "ntt_red" "inv_omega_powers" n
  ++ decl_toks "int16_t" "ntt_red" "inv_omega_powers_rev" n
  ++ decl_toks "int16_t" "ntt_red" "mixed_powers" n
  ++ decl_toks "int16_t" "ntt_red" "mixed_powers_rev" n
  ++ decl_toks "int16_t" "ntt_red" "inv_mixed_powers" n
  ++ decl_toks "int16_t" "ntt_red" "inv_mixed_powers_rev" n
  ++ dir_toks [Word "endif"])%list.
Proof. unfold red_tables_h, eol. lxf. reflexivity. Qed.

Definition include_toks (w : string) : list token :=
  dir_toks [Word "include"; Punct """"; Word w; Punct "."; Word "h"; Punct """"].

Lemma in_nonneg lo hi a v : 0 <= lo -> all_in lo hi a -> In v a -> 0 <= v.
Proof. intros Hl H Hv. specialize (H v Hv). lia. Qed.

Lemma tables_c_ok q n T k psi : tables_ok k psi T -> n = 2 ^ k -> 0 <= k <= 11 ->
  exists t, tables_c q n T = Ok t /\ run B t = (B,
  include_toks ("ntt" ++ fmt_u n ++ "_tables")
  ++ table_toks "uint16_t" "ntt" "psi_powers" n (psi_powers T)
  ++ table_toks "uint16_t" "ntt" "inv_psi_powers" n (inv_psi_powers T)
  ++ table_toks "uint16_t" "ntt" "inv_psi_powers_rev" n (inv_psi_powers_rev T)
  ++ table_toks "uint16_t" "ntt" "scaled_inv_psi_powers" n (scaled_inv_psi_powers T)
  ++ table_toks "uint16_t" "ntt" "omega_powers" n (omega_powers T)
  ++ table_toks "uint16_t" "ntt" "omega_powers_rev" n (omega_powers_rev T)
  ++ table_toks "uint16_t" "ntt" "inv_omega_powers" n (inv_omega_powers T)
  ++ table_toks "uint16_t" "ntt" "inv_omega_powers_rev" n (inv_omega_powers_rev T)
  ++ table_toks "uint16_t" "ntt" "mixed_powers" n (mixed_powers T)
  ++ table_toks "uint16_t" "ntt" "mixed_powers_rev" n (mixed_powers_rev T)
  ++ table_toks "uint16_t" "ntt" "inv_mixed_powers" n (inv_mixed_powers T)
  ++ table_toks "uint16_t" "ntt" "inv_mixed_powers_rev" n (inv_mixed_powers_rev T))%list.
Proof.
  intros HT Hn Hk.
  assert (Hn' : n <= 2147483648).
  { rewrite Hn. transitivity (2 ^ 31); [apply Z.pow_le_mono_r; lia|reflexivity]. }
  destruct HT as [_ _ _ _ _ [[L1 _] P1] [[L2 _] P2] [[L3 _] P3] [[L4 _] P4] [[L5 _] P5] [[L6 _] P6]
    [[L7 _] P7] [[L8 _] P8] [[L9 _] P9] [[L10 _] P10] [[L11 _] P11] [[L12 _] P12]].
  rewrite <- Hn in *. unfold tables_c.
  Ltac tb name a L P n Hn' :=
    let t := fresh "t" in let E := fresh "E" in let HR := fresh "HR" in
    destruct (table_text_ok name a n eq_refl L Hn' (fun v => in_nonneg 0 _ a v (Z.le_refl 0) P)) as (t & E & HR);
    rewrite E; cbn [bind].
  tb "psi_powers" (psi_powers T) L1 P1 n Hn'.
  tb "inv_psi_powers" (inv_psi_powers T) L2 P2 n Hn'.
  tb "inv_psi_powers_rev" (inv_psi_powers_rev T) L3 P3 n Hn'.
  tb "scaled_inv_psi_powers" (scaled_inv_psi_powers T) L4 P4 n Hn'.
  tb "omega_powers" (omega_powers T) L5 P5 n Hn'.
  tb "omega_powers_rev" (omega_powers_rev T) L6 P6 n Hn'.
  tb "inv_omega_powers" (inv_omega_powers T) L7 P7 n Hn'.
  tb "inv_omega_powers_rev" (inv_omega_powers_rev T) L8 P8 n Hn'.
  tb "mixed_powers" (mixed_powers T) L9 P9 n Hn'.
  tb "mixed_powers_rev" (mixed_powers_rev T) L10 P10 n Hn'.
  tb "inv_mixed_powers" (inv_mixed_powers T) L11 P11 n Hn'.
  tb "inv_mixed_powers_rev" (inv_mixed_powers_rev T) L12 P12 n Hn'.
  eexists. split; [reflexivity|]. unfold eol. lxf. reflexivity.
Qed.

Lemma red_tables_c_ok q k0 n T k psi : red_tables_ok k psi T -> n = 2 ^ k -> 0 <= k <= 11 ->
  exists t, red_tables_c q k0 n T = Ok t /\ run B t = (B,
  include_toks ("ntt_red" ++ fmt_u n ++ "_tables")
  ++ table_toks "int16_t" "ntt_red" "psi_powers" n (red_psi_powers T)
  ++ table_toks "int16_t" "ntt_red" "psi_powers_rev" n (red_psi_powers_rev T)
  ++ table_toks "int16_t" "ntt_red" "inv_psi_powers" n (red_inv_psi_powers T)
  ++ table_toks "int16_t" "ntt_red" "scaled_inv_psi_powers" n (red_scaled_inv_psi_powers T)
  ++ table_toks "int16_t" "ntt_red" "scaled_inv_psi_powers_var" n (red_scaled_inv_psi_powers_var T)
  ++ table_toks "int16_t" "ntt_red" "omega_powers" n (red_omega_powers T)
  ++ table_toks "int16_t" "ntt_red" "omega_powers_rev" n (red_omega_powers_rev T)
  ++ table_toks "int16_t" "ntt_red" "inv_omega_powers" n (red_inv_omega_powers T)
  ++ table_toks "int16_t" "ntt_red" "inv_omega_powers_rev" n (red_inv_omega_powers_rev T)
  ++ table_toks "int16_t" "ntt_red" "mixed_powers" n (red_mixed_powers T)
  ++ table_toks "int16_t" "ntt_red" "mixed_powers_rev" n (red_mixed_powers_rev T)
  ++ table_toks "int16_t" "ntt_red" "inv_mixed_powers" n (red_inv_mixed_powers T)
  ++ table_toks "int16_t" "ntt_red" "inv_mixed_powers_rev" n (red_inv_mixed_powers_rev T))%list.
Proof.
  intros HT Hn Hk.
  assert (Hn' : n <= 2147483648).
  { rewrite Hn. transitivity (2 ^ 31); [apply Z.pow_le_mono_r; lia|reflexivity]. }
  destruct HT as [_ _ _ _ _ _ _ _ [[L1 _] _] [[L2 _] _] [[L3 _] _] [[L4 _] _] [[L5 _] _] [[L6 _] _]
    [[L7 _] _] [[L8 _] _] [[L9 _] _] [[L10 _] _] [[L11 _] _] [[L12 _] _] [[L13 _] _]].
  rewrite <- Hn in *. unfold red_tables_c.
  Ltac rtb name a L n Hn' :=
    let t := fresh "t" in let E := fresh "E" in let HR := fresh "HR" in
    destruct (red_table_text_ok name a n eq_refl L Hn') as (t & E & HR);
    rewrite E; cbn [bind].
  rtb "psi_powers" (red_psi_powers T) L1 n Hn'.
  rtb "psi_powers_rev" (red_psi_powers_rev T) L2 n Hn'.
  rtb "inv_psi_powers" (red_inv_psi_powers T) L3 n Hn'.
  rtb "scaled_inv_psi_powers" (red_scaled_inv_psi_powers T) L4 n Hn'.
  rtb "scaled_inv_psi_powers_var" (red_scaled_inv_psi_powers_var T) L5 n Hn'.
  rtb "omega_powers" (red_omega_powers T) L6 n Hn'.
  rtb "omega_powers_rev" (red_omega_powers_rev T) L7 n Hn'.
  rtb "inv_omega_powers" (red_inv_omega_powers T) L8 n Hn'.
  rtb "inv_omega_powers_rev" (red_inv_omega_powers_rev T) L9 n Hn'.
  rtb "mixed_powers" (red_mixed_powers T) L10 n Hn'.
  rtb "mixed_powers_rev" (red_mixed_powers_rev T) L11 n Hn'.
  rtb "inv_mixed_powers" (red_inv_mixed_powers T) L12 n Hn'.
  rtb "inv_mixed_powers_rev" (red_inv_mixed_powers_rev T) L13 n Hn'.
  eexists. split; [reflexivity|]. unfold eol. lxf. reflexivity.
Qed.

(** ** The bit-reversal tables *)
Definition pair_toks (p : Z * Z) : list token :=
  [Punct "{"; Word (fmt_u (fst p)); Punct ","; Word (fmt_u (snd p)); Punct "}"; Punct ","].

Lemma run_pair i j : run B (" { " ++ width5 (fmt_u i) ++ ", " ++ width5 (fmt_u j) ++ " },") = (B, pair_toks (i, j)).
Proof.
  unfold width5, pair_toks. cbn [fst snd].
  lx. reflexivity.
Qed.

Lemma cfor_sim {S1 S2 : Type} (R : S1 -> S2 -> Prop) c nx (b1 : Z -> S1 -> res S1) (b2 : Z -> S2 -> res S2) :
  (forall i x y y', R x y -> b2 i y = Ok y' -> exists x', b1 i x = Ok x' /\ R x' y') ->
  forall f i x y y', R x y -> cfor f i c nx b2 y = Ok y' -> exists x', cfor f i c nx b1 x = Ok x' /\ R x' y'.
Proof.
  intros HB. induction f as [|f IH]; intros i x y y' HR H; [discriminate H|]. cbn [cfor] in H |- *.
  destruct (c i); [|injection H as <-; eauto].
  destruct (b2 i y) as [y1|e] eqn:E2; [|discriminate H]. cbn [bind] in H.
  destruct (HB i x y y1 HR E2) as (x1 & E1 & HR1). rewrite E1. cbn [bind]. exact (IH _ _ _ _ HR1 H).
Qed.

Lemma bitrev_c_ok n k t : print_bitrev_table n k = Ok t ->
  exists s, bitrev_c n k = Ok s /\ run B s = (B,
   include_toks ("bitrev" ++ fmt_u n ++ "_table")
   ++ [Word "const"; Word "uint16_t"; Word ("bitrev" ++ fmt_u n);
       Punct "["; Word ("BITREV" ++ fmt_u n ++ "_NPAIRS"); Punct "]"; Punct "["; Word "2"; Punct "]"; Punct "="; Punct "{"]
   ++ flat_map pair_toks t ++ [Punct "}"; Punct ";"])%list.
Proof.
  intros H. cbv beta delta [bitrev_c]. unfold print_bitrev_table in H.
  destruct (cfor_sim (fun (x : Z * string) y => 0 <= fst x < 4 /\ run B (snd x) = (B, flat_map pair_toks y))
    (fun i => i <? n) (fun i => u32 (i + 1))
    (fun i (st : Z * string) =>
      let (z, t) := st in
      do j <- reverse i k;
      if i <? j then
        let t := if z =? 0 then t ++ "   " else t in
        let t := t ++ " { " ++ width5 (fmt_u i) ++ ", " ++ width5 (fmt_u j) ++ " }," in
        let z := u32 (z + 1) in
        if z =? 4 then Ok (0, t ++ eol) else Ok (z, t)
      else Ok (z, t))
    (fun i out => do j <- reverse i k; Ok (if i <? j then (out ++ [(i, j)])%list else out))) with (f := fuel n) (i := 0) (x := (0, "") : Z * string) (y := @nil (Z * Z)) (y' := t)
    as ([z s] & E & Hz & Hs).
  - intros i [z s] y y' [Hz Hs] Hy. cbn [fst snd] in Hz, Hs.
    destruct (reverse i k) as [j|e]; [|discriminate Hy]. cbn [bind] in Hy |- *. injection Hy as <-.
    destruct (i <? j); [|eexists; split; [reflexivity|split; [exact Hz|exact Hs]]].
    set (s0 := if z =? 0 then s ++ "   " else s).
    assert (H0 : run B s0 = (B, flat_map pair_toks y)).
    { unfold s0. destruct (z =? 0); [|exact Hs]. rewrite <- (List.app_nil_r (flat_map _ _)). apply seg_app; [exact Hs|reflexivity]. }
    assert (H1 : run B (s0 ++ " { " ++ width5 (fmt_u i) ++ ", " ++ width5 (fmt_u j) ++ " },") = (B, flat_map pair_toks (y ++ [(i, j)])%list)).
    { rewrite flat_map_app. cbn [flat_map]. rewrite List.app_nil_r. apply seg_app; [exact H0|apply run_pair]. }
    cbv zeta. rewrite u32_small by lia.
    destruct (Z.eqb_spec (z + 1) 4); eexists; (split; [reflexivity|]); cbn [fst snd]; (split; [lia|]).
    + rewrite <- (List.app_nil_r (flat_map _ _)). apply seg_app; [exact H1|reflexivity].
    + exact H1.
  - cbn [fst snd]. split; [lia|reflexivity].
  - exact H.
  - rewrite E. cbn [bind]. eexists. split; [reflexivity|]. cbn [fst snd] in Hs.
    assert (He : run B (if 0 <? z then eol else "") = (B, [])) by (destruct (0 <? z); reflexivity).
    unfold include_toks, eol in *. lxf. reflexivity.
Qed.

Lemma pairs_ok t r : Forall (fun p => 0 <= fst p /\ 0 <= snd p) t ->
  pairs (flat_map pair_toks t ++ Punct "}" :: r) = Some (t, r).
Proof.
  induction 1 as [|[i j] t [Hi Hj] Ht IH]; [reflexivity|]. cbn [fst snd] in Hi, Hj.
  cbn [flat_map]. rewrite <- List.app_assoc. unfold pair_toks at 1. cbn [fst snd List.app].
  cbn [pairs]. rewrite !number_fmt by assumption. rewrite IH. reflexivity.
Qed.

Lemma run_bitrev_h n m : run B (bitrev_h n m) = (B,
  guard_toks ("__BITREV" ++ fmt_u n ++ "_TABLE_H")
  ++ dir_toks [Word "define"; Word ("BITREV" ++ fmt_u n ++ "_NPAIRS"); Word (fmt_u m)]
  ++ [Word "extern"; Word "const"; Word "uint16_t"; Word ("bitrev" ++ fmt_u n);
      Punct "["; Word ("BITREV" ++ fmt_u n ++ "_NPAIRS"); Punct "]"; Punct "["; Word "2"; Punct "]"; Punct ";"]
  ++ dir_toks [Word "endif"])%list.
Proof. unfold bitrev_h, eol. lxf. reflexivity. Qed.
