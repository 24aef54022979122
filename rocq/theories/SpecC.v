(** A reader for the small part of C in which tables are written: comments,
    preprocessor lines, and declarations of constants and arrays.  It is used
    to say what a generated file means; it knows nothing of the generators. *)

From Coq Require Import ZArith List Ascii String Bool DecimalString.
Import ListNotations.
Open Scope Z_scope.

(** ** Tokens *)
Inductive token :=
| Word (w : string)     (* identifier, keyword or number *)
| Punct (c : ascii)     (* any other visible character *)
| Eol.                  (* end of a preprocessor line *)

Definition nl : ascii := "010"%char.

Definition is_space (c : ascii) : bool :=
  Ascii.eqb c " " || Ascii.eqb c nl || Ascii.eqb c "009" || Ascii.eqb c "013".

Definition between (a b c : ascii) : bool :=
  (nat_of_ascii a <=? nat_of_ascii c)%nat && (nat_of_ascii c <=? nat_of_ascii b)%nat.

Definition is_digit (c : ascii) : bool := between "0" "9" c.

Definition is_word (c : ascii) : bool :=
  is_digit c || between "a" "z" c || between "A" "Z" c || Ascii.eqb c "_".

(** State of the lexer: what it is reading, and whether it is on a
    preprocessor line.  [Stuck] stands for text this reader does not know. *)
Inductive mode := Base | InWord (w : string) | Slash | Comment | CommentStar | Stuck.
Definition lstate : Type := mode * bool.

Definition step_base (d : bool) (c : ascii) : lstate * list token :=
  if Ascii.eqb c nl then ((Base, false), if d then [Eol] else [])
  else if is_space c then ((Base, d), [])
  else if is_word c then ((InWord (String c ""), d), [])
  else if Ascii.eqb c "/" then ((Slash, d), [])
  else if Ascii.eqb c "#" then ((Base, true), [Punct c])
  else ((Base, d), [Punct c]).

Definition step (s : lstate) (c : ascii) : lstate * list token :=
  let (m, d) := s in
  match m with
  | Base => step_base d c
  | InWord w =>
      if is_word c then ((InWord (w ++ String c ""), d), [])
      else let (s', t) := step_base d c in (s', Word w :: t)
  | Slash => if Ascii.eqb c "*" then ((Comment, d), []) else ((Stuck, d), [])
  | Comment => if Ascii.eqb c "*" then ((CommentStar, d), []) else ((Comment, d), [])
  | CommentStar =>
      if Ascii.eqb c "/" then ((Base, d), [])
      else if Ascii.eqb c "*" then ((CommentStar, d), []) else ((Comment, d), [])
  | Stuck => ((Stuck, d), [])
  end.

Fixpoint run (s : lstate) (t : string) : lstate * list token :=
  match t with
  | EmptyString => (s, [])
  | String c t' =>
      let (s1, l1) := step s c in
      let (s2, l2) := run s1 t' in
      (s2, l1 ++ l2)%list
  end.

(** The whole file; it must not end inside a word, a comment or a
    preprocessor line. *)
Definition lex (t : string) : option (list token) :=
  match run (Base, false) t with
  | ((Base, false), l) => Some l
  | _ => None
  end.

(** ** Numbers: decimal constants.  A leading 0 would make the constant octal;
    it is refused. *)
Definition number (w : string) : option Z :=
  match w with
  | String "0" (String _ _) => None
  | _ => option_map Z.of_uint (NilZero.uint_of_string w)
  end.

(** The usual decimal notation of a natural number. *)
Definition decimal (z : Z) : string := NilZero.string_of_uint (N.to_uint (Z.to_N z)).

(** ** Declarations *)
Inductive value :=
| Numbers (l : list Z)           (* { 1, -2, .. } *)
| Pairs (l : list (Z * Z)).      (* { { 1, 2 }, .. } *)

Inductive item :=
| Directive (l : list token)                       (* # .. *)
| Constant (ty name : string) (v : Z)              (* static const ty name = v; *)
| Extern (ty name : string) (dims : list token)    (* extern const ty name[..][..]; *)
| Table (ty name : string) (dims : list token) (v : value).  (* const ty name[..] = {..}; *)

Fixpoint until_eol (l : list token) : option (list token * list token) :=
  match l with
  | [] => None
  | Eol :: r => Some ([], r)
  | t :: r => match until_eol r with Some (d, r') => Some (t :: d, r') | None => None end
  end.

Fixpoint dims (l : list token) : list token * list token :=
  match l with
  | Punct "[" :: t :: Punct "]" :: r => let (d, r') := dims r in (t :: d, r')
  | _ => ([], l)
  end.

(** the rest of [{ x, x, .. , }] after the first brace *)
Fixpoint numbers (l : list token) : option (list Z * list token) :=
  match l with
  | Punct "}" :: r => Some ([], r)
  | Word w :: Punct "," :: r =>
      match number w, numbers r with
      | Some v, Some (vs, r') => Some (v :: vs, r')
      | _, _ => None
      end
  | Punct "-" :: Word w :: Punct "," :: r =>
      match number w, numbers r with
      | Some v, Some (vs, r') => Some (- v :: vs, r')
      | _, _ => None
      end
  | _ => None
  end.

Fixpoint pairs (l : list token) : option (list (Z * Z) * list token) :=
  match l with
  | Punct "}" :: r => Some ([], r)
  | Punct "{" :: Word x :: Punct "," :: Word y :: Punct "}" :: Punct "," :: r =>
      match number x, number y, pairs r with
      | Some a, Some b, Some (vs, r') => Some ((a, b) :: vs, r')
      | _, _, _ => None
      end
  | _ => None
  end.

Definition initializer (ds : list token) (l : list token) : option (value * list token) :=
  match ds with
  | [_] => option_map (fun x => (Numbers (fst x), snd x)) (numbers l)
  | [_; _] => option_map (fun x => (Pairs (fst x), snd x)) (pairs l)
  | _ => None
  end.

Definition one_item (l : list token) : option (item * list token) :=
  match l with
  | Punct "#" :: r =>
      match until_eol r with Some (d, r') => Some (Directive d, r') | None => None end
  | Word w :: Word w2 :: Word ty :: Word name :: Punct "=" :: Word v :: Punct ";" :: r =>
      if (w =? "static")%string && (w2 =? "const")%string then
        match number v with Some x => Some (Constant ty name x, r) | None => None end
      else None
  | Word w :: Word w2 :: Word ty :: Word name :: r =>
      if (w =? "extern")%string && (w2 =? "const")%string then
        match dims r with
        | (ds, Punct ";" :: r') => Some (Extern ty name ds, r')
        | _ => None
        end
      else None
  | Word w :: Word ty :: Word name :: r =>
      if (w =? "const")%string then
        match dims r with
        | (ds, Punct "=" :: Punct "{" :: r') =>
            match initializer ds r' with
            | Some (v, Punct ";" :: r'') => Some (Table ty name ds v, r'')
            | _ => None
            end
        | _ => None
        end
      else None
  | _ => None
  end.

Fixpoint items (fuel : nat) (l : list token) : option (list item) :=
  match l with
  | [] => Some []
  | _ =>
      match fuel with
      | O => None
      | S f =>
          match one_item l with
          | Some (i, r) => option_map (cons i) (items f r)
          | None => None
          end
      end
  end.

(** What a file says; [None] if it is not in this part of C. *)
Definition read_c (t : string) : option (list item) :=
  match lex t with
  | Some l => items (List.length l) l
  | None => None
  end.
