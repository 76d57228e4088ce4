(** Abstract syntax of the Python subset in which the numerical parts of /repo are written, a
    lexer and a parser for it.  Definitions only.

    This file models no function of /repo: it is the front end of the interpreter of PySem.v.  The
    texts it is applied to (Src*.v) are the files of /repo, byte for byte. *)
From Coq Require Import ZArith List Bool Ascii String NArith.
From Coq.Init Require Import Byte.
From Coq.Strings Require Import Byte.
Import ListNotations.
Open Scope Z_scope.

(** ** Texts: lists of bytes, written as string literals. *)
Inductive text := Text (l : list byte).
Definition text_bytes (t : text) : list byte := match t with Text l => l end.
Declare Scope text_scope.
Delimit Scope text_scope with text.
String Notation text Text text_bytes : text_scope.

(** ** Syntax *)
Inductive expr :=
| EName (s : string)
| EInt (z : Z)
| EFlt (m e : Z)                                  (* the literal m * 10^-e *)
| EStr (s : string)
| EFStr (s : string)                              (* f"..." *)
| ENone | ETrue | EFalse | EEllipsis
| EBin (o : string) (a b : expr)                  (* + - * / // % ** *)
| ENeg (a : expr)
| ENot (a : expr)
| ECmp (a : expr) (l : list (string * expr))      (* a op b op c ... *)
| EAnd (a b : expr) | EOr (a b : expr)
| EIfE (c a b : expr)                             (* a if c else b *)
| ECall (f : expr) (args : list expr) (kws : list (string * expr))
| EAttr (e : expr) (s : string)
| ESub (e : expr) (l : list expr)                 (* e[l]; slices are [ESlice] *)
| ESlice (a b c : option expr)
| ETup (l : list expr) | EList (l : list expr)
| EDict (l : list (expr * expr))
| EComp (e : expr) (x : expr) (it : expr) (c : option expr)  (* [e for x in it if c] *)
| ELam (ps : list string) (e : expr)
| EStar (e : expr)
| EYield (e : expr).

Inductive stmt :=
| SAssign (ts : list expr) (e : expr)             (* t1 = t2 = e *)
| SAug (o : string) (t e : expr)
| SExpr (e : expr)
| SIf (c : expr) (b1 b2 : list stmt)
| SFor (x it : expr) (b : list stmt)
| SWhile (c : expr) (b : list stmt)
| SRet (e : option expr)
| SPass | SBreak | SContinue
| SRaise (e : option expr)
| SAssert (e : expr)
| SImport
| STry (b h : list stmt)
| SDef (name : string) (ps : list (string * option expr)) (body : list stmt)
| SClass (name : string) (body : list stmt)
| SDeco (e : expr) (s : stmt).                    (* @e before a definition *)

(** ** Lexer *)
Inductive tok :=
| TName (s : string) | TInt (z : Z) | TFlt (m e : Z) | TStr (s : string) | TOp (s : string)
| TNl | TInd | TDed.

Definition bN (b : byte) : N := to_N b.
Definition is_digit (b : byte) : bool := (N.leb 48 (bN b) && N.leb (bN b) 57)%N.
(** Letters, underscore and every non-ASCII byte (the sources use Greek letters, in UTF-8). *)
Definition is_alpha (b : byte) : bool :=
  ((N.leb 65 (bN b) && N.leb (bN b) 90) || (N.leb 97 (bN b) && N.leb (bN b) 122)
   || N.eqb (bN b) 95 || N.leb 128 (bN b))%N.
Definition is_b (n : N) (b : byte) : bool := N.eqb (bN b) n.
Definition is_space (b : byte) : bool := is_b 32 b || is_b 13 b || is_b 9 b.

Fixpoint span (p : byte -> bool) (l : list byte) : list byte * list byte :=
  match l with
  | b :: r => if p b then let '(x, y) := span p r in (b :: x, y) else ([], l)
  | [] => ([], [])
  end.
Definition to_str (l : list byte) : string := string_of_list_byte l.
Definition digits (l : list byte) : Z :=
  fold_left (fun z b => 10 * z + Z.of_N (bN b - 48)) l 0.

Fixpoint prefixb (p l : list byte) : bool :=
  match p, l with
  | [], _ => true
  | x :: p', y :: l' => Byte.eqb x y && prefixb p' l'
  | _, [] => false
  end.

(** Operators, longest first. *)
Definition operators : list string :=
  ["**="; "//="; "..."; "**"; "//"; "=="; "!="; "<="; ">="; "+="; "-="; "*="; "/="; "->";
   "+"; "-"; "*"; "/"; "%"; "("; ")"; "["; "]"; "{"; "}"; ","; ":"; "."; ";"; "="; "<"; ">"; "@"; "^"; "~"; "&"; "|"]%string.
Definition find_op (l : list byte) : option (string * list byte) :=
  match find (fun o => prefixb (list_byte_of_string o) l) operators with
  | Some o => Some (o, skipn (String.length o) l)
  | None => None
  end.

(** A string body up to the closing quote [q] (three of them when [triple]); backslash quotes the
    next byte. *)
Fixpoint lex_string (triple : bool) (q : byte) (l acc : list byte) : option (list byte * list byte) :=
  match l with
  | [] => None
  | b :: r =>
      if is_b 92 b then match r with c :: r' => lex_string triple q r' (c :: b :: acc) | [] => None end
      else if Byte.eqb b q then
        if triple then
          match r with
          | c :: d :: r' => if Byte.eqb c q && Byte.eqb d q then Some (rev acc, r')
                            else lex_string triple q r (b :: acc)
          | _ => None
          end
        else Some (rev acc, r)
      else lex_string triple q r (b :: acc)
  end.

(** A number: digits, optional fraction, optional exponent. *)
Definition lex_number (l : list byte) : tok * list byte :=
  let '(i, r) := span is_digit l in
  let '(f, r, fl) := match r with
                     | b :: r' => if is_b 46 b then let '(f, r'') := span is_digit r' in (f, r'', true) else ([], r, false)
                     | [] => ([], r, false)
                     end in
  let '(ex, r, fl) :=
    match r with
    | b :: r' =>
        if is_b 101 b || is_b 69 b then
          match r' with
          | s :: r'' => if is_b 45 s then let '(e, r3) := span is_digit r'' in (- digits e, r3, true)
                        else if is_b 43 s then let '(e, r3) := span is_digit r'' in (digits e, r3, true)
                        else let '(e, r3) := span is_digit r' in (digits e, r3, true)
          | [] => (0, r, fl)
          end
        else (0, r, fl)
    | [] => (0, r, fl)
    end in
  if fl then (TFlt (digits (i ++ f)) (Z.of_nat (List.length f) - ex), r) else (TInt (digits i), r).

(** Leading dedents: pops the indentation stack down to [n]. *)
Fixpoint dedents (n : nat) (st : list nat) : list tok * list nat :=
  match st with
  | m :: st' => if Nat.ltb n m then let '(t, s) := dedents n st' in (TDed :: t, s) else ([], st)
  | [] => ([], [])
  end.

Definition bracket (o : string) (depth : nat) : nat :=
  if (String.eqb o "(" || String.eqb o "[" || String.eqb o "{")%string then S depth
  else if (String.eqb o ")" || String.eqb o "]" || String.eqb o "}")%string then pred depth
  else depth.

(** [bol]: at the beginning of a logical line; [depth]: open brackets; [st]: indentation stack. *)
Fixpoint lex (fuel : nat) (bol : bool) (depth : nat) (st : list nat) (l : list byte) : option (list tok) :=
  match fuel with
  | O => None
  | S fuel =>
      let cons ts o := match o with Some r => Some (ts ++ r) | None => None end in
      if bol then
        let '(sp, r) := span (is_b 32) l in
        match r with
        | [] => Some (fst (dedents 0 st))
        | b :: r' =>
            if is_b 10 b || is_b 13 b then lex fuel true depth st r'
            else if is_b 35 b then lex fuel true depth st (snd (span (fun c => negb (is_b 10 c)) r))
            else
              let n := List.length sp in
              let '(de, st) := dedents n st in
              let top := hd O st in
              if Nat.ltb top n then cons [TInd] (lex fuel false depth (n :: st) r)
              else cons de (lex fuel false depth st r)
        end
      else
        match l with
        | [] => Some (TNl :: fst (dedents 0 st))
        | b :: r =>
            if is_b 10 b then
              match depth with O => cons [TNl] (lex fuel true depth st r) | _ => lex fuel false depth st r end
            else if is_space b then lex fuel false depth st r
            else if is_b 35 b then lex fuel false depth st (snd (span (fun c => negb (is_b 10 c)) l))
            else if is_b 92 b then lex fuel false depth st (tl r)
            else if is_b 59 b then    (* a semicolon ends a statement, unless the line ends there *)
              match snd (span is_space r) with
              | c :: _ => if is_b 10 c then lex fuel false depth st r else cons [TNl] (lex fuel false depth st r)
              | [] => lex fuel false depth st r
              end
            else if is_digit b then let '(t, r) := lex_number l in cons [t] (lex fuel false depth st r)
            else if is_alpha b then
              let '(s, r) := span (fun c => is_alpha c || is_digit c) l in
              let prefix := match s, r with   (* r"..." is read as a plain string *)
                            | [c], q :: _ => if (is_b 34 q || is_b 39 q) && (is_b 102 c || is_b 114 c) then Some (is_b 102 c) else None
                            | _, _ => None
                            end in
              match prefix with
              | Some true => cons [TOp "f"] (lex fuel false depth st r)
              | Some false => lex fuel false depth st r
              | None => cons [TName (to_str s)] (lex fuel false depth st r)
              end
            else if is_b 34 b || is_b 39 b then
              let '(triple, r) := match r with
                                  | c :: d :: r' => if Byte.eqb c b && Byte.eqb d b then (true, r') else (false, r)
                                  | _ => (false, r)
                                  end in
              match lex_string triple b r [] with
              | Some (s, r) => cons [TStr (to_str s)] (lex fuel false depth st r)
              | None => None
              end
            else match find_op l with
                 | Some (o, r) => cons [TOp o] (lex fuel false (bracket o depth) st r)
                 | None => None
                 end
        end
  end.
Definition tokens (l : list byte) : option (list tok) := lex (S (List.length l) * 2) true 0 [0%nat] l.

(** ** Parser (recursive descent).  Levels: 0 conditional, 1 or, 2 and, 3 not, 4 comparison, 5 sum,
    6 product (the operator ^, used once, is read as a sum), 7 unary minus, 8 power, 9 call/subscript/attribute. *)
Definition keyword (s : string) : bool :=
  existsb (String.eqb s)
    ["if"; "else"; "elif"; "for"; "in"; "is"; "not"; "and"; "or"; "lambda"; "return"; "pass"; "def"; "class";
     "while"; "import"; "from"; "raise"; "assert"; "try"; "except"; "break"; "continue"; "yield"; "as"; "del"; "global"]%string.
Definition op_is (o : string) (ts : list tok) : option (list tok) :=
  match ts with TOp p :: r => if String.eqb o p then Some r else None | _ => None end.
Definition kw_is (o : string) (ts : list tok) : option (list tok) :=
  match ts with TName p :: r => if String.eqb o p then Some r else None | _ => None end.
Definition cmp_op (ts : list tok) : option (string * list tok) :=
  match ts with
  | TOp p :: r => if existsb (String.eqb p) ["<"; ">"; "<="; ">="; "=="; "!="]%string then Some (p, r) else None
  | TName p :: r =>
      if String.eqb p "in" then Some ("in"%string, r)
      else if String.eqb p "is" then
        match kw_is "not" r with Some r' => Some ("is not"%string, r') | None => Some ("is"%string, r) end
      else if String.eqb p "not" then
        match kw_is "in" r with Some r' => Some ("not in"%string, r') | None => None end
      else None
  | _ => None
  end.
Definition bin_op (lv : nat) (ts : list tok) : option (string * list tok) :=
  match ts with
  | TOp p :: r =>
      if existsb (String.eqb p) (if Nat.eqb lv 5 then ["+"; "-"; "^"]%string else ["*"; "/"; "//"; "%"]%string)
      then Some (p, r) else None
  | _ => None
  end.

Fixpoint plams (n : nat) (ts : list tok) : option (list string * list tok) :=
  match n with
  | O => None
  | S n =>
      match ts with
      | TName s :: TOp o :: r =>
          if String.eqb o ":" then Some ([s], r)
          else match plams n r with Some (l, r) => Some (s :: l, r) | None => None end
      | TOp o :: r => if String.eqb o ":" then Some ([], r) else None
      | _ => None
      end
  end.

Fixpoint pe (n : nat) (lv : nat) (ts : list tok) {struct n} : option (expr * list tok) :=
  match n with
  | O => None
  | S n =>
      match lv with
      | 0%nat =>
          match kw_is "lambda" ts with
          | Some r =>
              match plams n r with
              | Some (ps, r) => match pe n 0 r with Some (e, r) => Some (ELam ps e, r) | None => None end
              | None => None
              end
          | None =>
              match pe n 1 ts with
              | Some (a, r) =>
                  match kw_is "if" r with
                  | Some r1 =>
                      match pe n 1 r1 with
                      | Some (c, r2) =>
                          match kw_is "else" r2 with
                          | Some r3 => match pe n 0 r3 with Some (b, r4) => Some (EIfE c a b, r4) | None => None end
                          | None => Some (a, r)
                          end
                      | None => None
                      end
                  | None => Some (a, r)
                  end
              | None => None
              end
          end
      | 1%nat =>
          match pe n 2 ts with
          | Some (a, r) =>
              match kw_is "or" r with
              | Some r => match pe n 1 r with Some (b, r) => Some (EOr a b, r) | None => None end
              | None => Some (a, r)
              end
          | None => None
          end
      | 2%nat =>
          match pe n 3 ts with
          | Some (a, r) =>
              match kw_is "and" r with
              | Some r => match pe n 2 r with Some (b, r) => Some (EAnd a b, r) | None => None end
              | None => Some (a, r)
              end
          | None => None
          end
      | 3%nat =>
          match kw_is "not" ts with
          | Some r => match pe n 3 r with Some (a, r) => Some (ENot a, r) | None => None end
          | None => pe n 4 ts
          end
      | 4%nat =>
          match pe n 5 ts with
          | Some (a, r) =>
              match pcmps n r with
              | Some ([], r) => Some (a, r)
              | Some (l, r) => Some (ECmp a l, r)
              | None => None
              end
          | None => None
          end
      | 5%nat => match pe n 6 ts with Some (a, r) => pbins n 5 a r | None => None end
      | 6%nat => match pe n 7 ts with Some (a, r) => pbins n 6 a r | None => None end
      | 7%nat =>
          match op_is "-" ts with
          | Some r => match pe n 7 r with Some (a, r) => Some (ENeg a, r) | None => None end
          | None => pe n 8 ts
          end
      | 8%nat =>
          match pe n 9 ts with
          | Some (a, r) =>
              match op_is "**" r with
              | Some r => match pe n 7 r with Some (b, r) => Some (EBin "**" a b, r) | None => None end
              | None => Some (a, r)
              end
          | None => None
          end
      | _ =>
          match ts with
          | TInt z :: r => ppost n (EInt z) r
          | TFlt m e :: r => ppost n (EFlt m e) r
          | TStr s :: r => ppost n (EStr s) r
          | TName s :: r =>
              if String.eqb s "None" then ppost n ENone r
              else if String.eqb s "True" then ppost n ETrue r
              else if String.eqb s "False" then ppost n EFalse r
              else if String.eqb s "yield" then
                match pe n 0 r with Some (e, r) => Some (EYield e, r) | None => None end
              else if keyword s then None
              else ppost n (EName s) r
          | TOp o :: r =>
              if String.eqb o "(" then
                match pitems n ")" r with
                | Some ([e], false, r) => ppost n e r
                | Some (l, _, r) => ppost n (ETup l) r
                | None => None
                end
              else if String.eqb o "[" then
                match pitems n "]" r with
                | Some ([EComp e x it c], false, r) => ppost n (EComp e x it c) r
                | Some (l, _, r) => ppost n (EList l) r
                | None => None
                end
              else if String.eqb o "{" then
                match pdict n r with Some (l, r) => ppost n (EDict l) r | None => None end
              else if String.eqb o "..." then Some (EEllipsis, r)
              else if String.eqb o "f" then match r with TStr s :: r => ppost n (EFStr s) r | _ => None end
              else None
          | _ => None
          end
      end
  end
with pbins (n : nat) (lv : nat) (a : expr) (ts : list tok) {struct n} : option (expr * list tok) :=
  match n with
  | O => None
  | S n =>
      match bin_op lv ts with
      | Some (o, r) =>
          match pe n (S lv) r with Some (b, r) => pbins n lv (EBin o a b) r | None => None end
      | None => Some (a, ts)
      end
  end
with pdict (n : nat) (ts : list tok) {struct n} : option (list (expr * expr) * list tok) :=
  match n with
  | O => None
  | S n =>
      match op_is "}" ts with
      | Some r => Some ([], r)
      | None =>
          match pe n 0 ts with
          | Some (k, r) =>
              match op_is ":" r with
              | Some r =>
                  match pe n 0 r with
                  | Some (v, r) =>
                      match op_is "," r with
                      | Some r => match pdict n r with Some (l, r) => Some ((k, v) :: l, r) | None => None end
                      | None => match op_is "}" r with Some r => Some ([(k, v)], r) | None => None end
                      end
                  | None => None
                  end
              | None => None
              end
          | None => None
          end
      end
  end
with pcmps (n : nat) (ts : list tok) {struct n} : option (list (string * expr) * list tok) :=
  match n with
  | O => None
  | S n =>
      match cmp_op ts with
      | Some (o, r) =>
          match pe n 5 r with
          | Some (b, r) => match pcmps n r with Some (l, r) => Some ((o, b) :: l, r) | None => None end
          | None => None
          end
      | None => Some ([], ts)
      end
  end
(** One element of a subscript: an expression or a slice. *)
with pslice (n : nat) (ts : list tok) {struct n} : option (expr * list tok) :=
  match n with
  | O => None
  | S n =>
      let opt (ts : list tok) :=
        match ts with
        | TOp o :: _ => if existsb (String.eqb o) [":"; "]"; ","]%string then Some (None, ts)
                        else match pe n 0 ts with Some (e, r) => Some (Some e, r) | None => None end
        | _ => match pe n 0 ts with Some (e, r) => Some (Some e, r) | None => None end
        end in
      match opt ts with
      | Some (a, r) =>
          match op_is ":" r with
          | Some r =>
              match opt r with
              | Some (b, r) =>
                  match op_is ":" r with
                  | Some r => match opt r with Some (c, r) => Some (ESlice a b c, r) | None => None end
                  | None => Some (ESlice a b None, r)
                  end
              | None => None
              end
          | None => match a with Some e => Some (e, r) | None => None end
          end
      | None => None
      end
  end
with psubs (n : nat) (ts : list tok) {struct n} : option (list expr * list tok) :=
  match n with
  | O => None
  | S n =>
      match op_is "]" ts with
      | Some r => Some ([], r)
      | None =>
          match pslice n ts with
          | Some (e, r) =>
              match op_is "," r with
              | Some r => match psubs n r with Some (l, r) => Some (e :: l, r) | None => None end
              | None => match op_is "]" r with Some r => Some ([e], r) | None => None end
              end
          | None => None
          end
      end
  end
(** Items up to a closing bracket; the flag says whether there was a comma. *)
with pitems (n : nat) (close : string) (ts : list tok) {struct n} : option (list expr * bool * list tok) :=
  match n with
  | O => None
  | S n =>
      match op_is close ts with
      | Some r => Some ([], true, r)
      | None =>
          match (match op_is "*" ts with
                 | Some r => match pe n 0 r with Some (e, r) => Some (EStar e, r) | None => None end
                 | None => pe n 0 ts
                 end) with
          | Some (e, r) =>
              match op_is "," r with
              | Some r => match pitems n close r with Some (l, _, r) => Some (e :: l, true, r) | None => None end
              | None =>
                  match op_is close r with
                  | Some r => Some ([e], false, r)
                  | None =>
                      match kw_is "for" r with
                      | Some r =>
                          match ptargets n r with
                          | Some (x, r) =>
                              match kw_is "in" r with
                              | Some r =>
                                  match pe n 1 r with
                                  | Some (it, r) =>
                                      match op_is close r with
                                      | Some r => Some ([EComp e x it None], false, r)
                                      | None =>
                                          match kw_is "if" r with
                                          | Some r =>
                                              match pe n 1 r with
                                              | Some (c, r) =>
                                                  match op_is close r with
                                                  | Some r => Some ([EComp e x it (Some c)], false, r)
                                                  | None => None
                                                  end
                                              | None => None
                                              end
                                          | None => None
                                          end
                                      end
                                  | None => None
                                  end
                              | None => None
                              end
                          | None => None
                          end
                      | None => None
                      end
                  end
              end
          | None => None
          end
      end
  end
(** Loop targets: names (or other primaries) separated by commas. *)
with ptargets (n : nat) (ts : list tok) {struct n} : option (expr * list tok) :=
  match n with
  | O => None
  | S n =>
      match pe n 9 ts with
      | Some (a, r) =>
          match op_is "," r with
          | Some r =>
              match ptargets n r with
              | Some (ETup l, r) => Some (ETup (a :: l), r)
              | Some (b, r) => Some (ETup [a; b], r)
              | None => None
              end
          | None => Some (a, r)
          end
      | None => None
      end
  end
with pargs (n : nat) (ts : list tok) {struct n} : option (list expr * list (string * expr) * list tok) :=
  match n with
  | O => None
  | S n =>
      match op_is ")" ts with
      | Some r => Some ([], [], r)
      | None =>
          let next (r : list tok) :=
            match op_is "," r with
            | Some r => pargs n r
            | None => match op_is ")" r with Some r => Some ([], [], r) | None => None end
            end in
          let positional :=
            match (match op_is "*" ts with
                   | Some r => match pe n 0 r with Some (e, r) => Some (EStar e, r) | None => None end
                   | None => pe n 0 ts
                   end) with
            | Some (e, r) =>
                match kw_is "for" r with
                | Some _ => match pitems n ")" ts with Some (l, _, r) => Some (l, [], r) | None => None end   (* f(e for x in it) *)
                | None => match next r with Some (l, k, r) => Some (e :: l, k, r) | None => None end
                end
            | None => None
            end in
          match op_is "**" ts with
          | Some r =>
              match pe n 0 r with
              | Some (e, r) => match next r with Some (l, k, r) => Some (l, ("**"%string, e) :: k, r) | None => None end
              | None => None
              end
          | None =>
              match ts with
              | TName s :: r1 =>
                  match op_is "=" r1 with
                  | Some r =>
                      match pe n 0 r with
                      | Some (e, r) => match next r with Some (l, k, r) => Some (l, (s, e) :: k, r) | None => None end
                      | None => None
                      end
                  | None => positional
                  end
              | _ => positional
              end
          end
      end
  end
with ppost (n : nat) (e : expr) (ts : list tok) {struct n} : option (expr * list tok) :=
  match n with
  | O => None
  | S n =>
      match ts with
      | TOp o :: r =>
          if String.eqb o "(" then
            match pargs n r with Some (l, k, r) => ppost n (ECall e l k) r | None => None end
          else if String.eqb o "[" then
            match psubs n r with Some (l, r) => ppost n (ESub e l) r | None => None end
          else if String.eqb o "." then
            match r with TName s :: r => ppost n (EAttr e s) r | _ => None end
          else Some (e, ts)
      | _ => Some (e, ts)
      end
  end.

(** An expression list without brackets, as in [a, b = c, d]. *)
Fixpoint pexprs (n : nat) (ts : list tok) : option (list expr * list tok) :=
  match n with
  | O => None
  | S n' =>
      match pe n 0 ts with
      | Some (e, r) =>
          match op_is "," r with
          | Some r => match pexprs n' r with Some (l, r) => Some (e :: l, r) | None => None end
          | None => Some ([e], r)
          end
      | None => None
      end
  end.
Definition ptuple (n : nat) (ts : list tok) : option (expr * list tok) :=
  match pexprs n ts with
  | Some ([e], r) => Some (e, r)
  | Some (l, r) => Some (ETup l, r)
  | None => None
  end.

Definition newline (ts : list tok) : option (list tok) :=
  match ts with TNl :: r => Some r | [] => Some [] | _ => None end.
Fixpoint skip_line (ts : list tok) : list tok :=
  match ts with TNl :: r => r | _ :: r => skip_line r | [] => [] end.

(** [= e1 = e2 ...] after a first expression list. *)
Fixpoint passign (n : nat) (acc : list expr) (last : expr) (ts : list tok) : option (stmt * list tok) :=
  match n with
  | O => None
  | S n' =>
      match op_is "=" ts with
      | Some r => match ptuple n r with Some (e, r) => passign n' (acc ++ [last]) e r | None => None end
      | None => Some (match acc with [] => SExpr last | _ => SAssign acc last end, ts)
      end
  end.
Definition aug_op (ts : list tok) : option (string * list tok) :=
  match ts with
  | TOp p :: r =>
      if String.eqb p "+=" then Some ("+"%string, r) else if String.eqb p "-=" then Some ("-"%string, r)
      else if String.eqb p "*=" then Some ("*"%string, r) else if String.eqb p "/=" then Some ("/"%string, r)
      else if String.eqb p "//=" then Some ("//"%string, r) else None
  | _ => None
  end.
Definition psimple (n : nat) (ts : list tok) : option (stmt * list tok) :=
  match ts with
  | TName s :: r =>
      if String.eqb s "pass" then Some (SPass, r)
      else if String.eqb s "break" then Some (SBreak, r)
      else if String.eqb s "continue" then Some (SContinue, r)
      else if (String.eqb s "import" || String.eqb s "from" || String.eqb s "global" || String.eqb s "del")%string
      then Some (SImport, TNl :: skip_line r)
      else if String.eqb s "return" then
        match r with
        | TNl :: _ => Some (SRet None, r)
        | _ => match ptuple n r with Some (e, r) => Some (SRet (Some e), r) | None => None end
        end
      else if String.eqb s "raise" then
        match r with
        | TNl :: _ => Some (SRaise None, r)
        | _ => match pe n 0 r with Some (e, r) => Some (SRaise (Some e), r) | None => None end
        end
      else if String.eqb s "assert" then
        match pexprs n r with Some (e :: _, r) => Some (SAssert e, r) | _ => None end
      else
        match ptuple n ts with
        | Some (e, r) =>
            match aug_op r with
            | Some (o, r) => match ptuple n r with Some (v, r) => Some (SAug o e v, r) | None => None end
            | None => passign n [] e r
            end
        | None => None
        end
  | _ =>
      match ptuple n ts with
      | Some (e, r) =>
          match aug_op r with
          | Some (o, r) => match ptuple n r with Some (v, r) => Some (SAug o e v, r) | None => None end
          | None => passign n [] e r
          end
      | None => None
      end
  end.

(** Parameters of a [def]: annotations are dropped, defaults kept, a star stays in the name. *)
Fixpoint pparams (n : nat) (ts : list tok) : option (list (string * option expr) * list tok) :=
  match n with
  | O => None
  | S n' =>
      match op_is ")" ts with
      | Some r => Some ([], r)
      | None =>
          let '(star, ts) := match op_is "*" ts with
                             | Some r => ("*"%string, r)
                             | None => match op_is "**" ts with Some r => ("**"%string, r) | None => (""%string, ts) end
                             end in
          match ts with
          | TName s :: r =>
              match (match op_is ":" r with
                     | Some r => match pe n 0 r with Some (_, r) => Some r | None => None end
                     | None => Some r
                     end) with
              | Some r =>
                  match (match op_is "=" r with
                         | Some r => match pe n 0 r with Some (e, r) => Some (Some e, r) | None => None end
                         | None => Some (None, r)
                         end) with
                  | Some (d, r) =>
                      let p := ((star ++ s)%string, d) in
                      match op_is "," r with
                      | Some r => match pparams n' r with Some (l, r) => Some (p :: l, r) | None => None end
                      | None => match op_is ")" r with Some r => Some ([p], r) | None => None end
                      end
                  | None => None
                  end
              | None => None
              end
          | _ => None
          end
      end
  end.

Fixpoint pstmt (n : nat) (ts : list tok) {struct n} : option (stmt * list tok) :=
  match n with
  | O => None
  | S n' =>
      match ts with
      | TName s :: r =>
          if String.eqb s "if" then
            match pe n 0 r with
            | Some (c, r) =>
                match psuite n' r with
                | Some (b1, r) => match pelse n' r with Some (b2, r) => Some (SIf c b1 b2, r) | None => None end
                | None => None
                end
            | None => None
            end
          else if String.eqb s "for" then
            match ptargets n r with
            | Some (x, r) =>
                match kw_is "in" r with
                | Some r =>
                    match ptuple n r with
                    | Some (it, r) => match psuite n' r with Some (b, r) => Some (SFor x it b, r) | None => None end
                    | None => None
                    end
                | None => None
                end
            | None => None
            end
          else if String.eqb s "while" then
            match pe n 0 r with
            | Some (c, r) => match psuite n' r with Some (b, r) => Some (SWhile c b, r) | None => None end
            | None => None
            end
          else if String.eqb s "try" then
            match psuite n' r with
            | Some (b, r) =>
                match kw_is "except" r with
                | Some r => match psuite n' r with Some (h, r) => Some (STry b h, r) | None => None end
                | None => None
                end
            | None => None
            end
          else if String.eqb s "def" then
            match r with
            | TName f :: r =>
                match op_is "(" r with
                | Some r =>
                    match pparams n r with
                    | Some (ps, r) =>
                        match (match op_is "->" r with
                               | Some r => match pe n 0 r with Some (_, r) => Some r | None => None end
                               | None => Some r
                               end) with
                        | Some r => match psuite n' r with Some (b, r) => Some (SDef f ps b, r) | None => None end
                        | None => None
                        end
                    | None => None
                    end
                | None => None
                end
            | _ => None
            end
          else if String.eqb s "class" then
            match r with
            | TName f :: r =>
                match (match op_is "(" r with
                       | Some r => match pargs n r with Some (_, _, r) => Some r | None => None end
                       | None => Some r
                       end) with
                | Some r => match psuite n' r with Some (b, r) => Some (SClass f b, r) | None => None end
                | None => None
                end
            | _ => None
            end
          else
            match psimple n ts with
            | Some (st, r) => match newline r with Some r => Some (st, r) | None => None end
            | None => None
            end
      | TOp o :: r =>
          if String.eqb o "@" then
            match pe n 0 r with
            | Some (e, r) =>
                match newline r with
                | Some r => match pstmt n' r with Some (st, r) => Some (SDeco e st, r) | None => None end
                | None => None
                end
            | None => None
            end
          else
            match psimple n ts with
            | Some (st, r) => match newline r with Some r => Some (st, r) | None => None end
            | None => None
            end
      | _ =>
          match psimple n ts with
          | Some (st, r) => match newline r with Some r => Some (st, r) | None => None end
          | None => None
          end
      end
  end
with pelse (n : nat) (ts : list tok) {struct n} : option (list stmt * list tok) :=
  match n with
  | O => None
  | S n' =>
      match kw_is "elif" ts with
      | Some r =>
          match pe n 0 r with
          | Some (c, r) =>
              match psuite n' r with
              | Some (b1, r) => match pelse n' r with Some (b2, r) => Some ([SIf c b1 b2], r) | None => None end
              | None => None
              end
          | None => None
          end
      | None =>
          match kw_is "else" ts with
          | Some r => psuite n' r
          | None => Some ([], ts)
          end
      end
  end
with psuite (n : nat) (ts : list tok) {struct n} : option (list stmt * list tok) :=
  match n with
  | O => None
  | S n' =>
      match op_is ":" ts with
      | Some (TNl :: TInd :: r) => pblock n' r
      | Some r => match psimple n r with
                  | Some (st, r) => match newline r with Some r => Some ([st], r) | None => None end
                  | None => None
                  end
      | None => None
      end
  end
with pblock (n : nat) (ts : list tok) {struct n} : option (list stmt * list tok) :=
  match n with
  | O => None
  | S n' =>
      match ts with
      | TDed :: r => Some ([], r)
      | [] => Some ([], [])
      | _ =>
          match pstmt n' ts with
          | Some (s, r) => match pblock n' r with Some (l, r) => Some (s :: l, r) | None => None end
          | None => None
          end
      end
  end.

(** A file: every token must be consumed. *)
Definition parse_bytes (fuel : nat) (l : list byte) : option (list stmt) :=
  match tokens l with
  | Some ts => match pblock fuel ts with Some (p, []) => Some p | _ => None end
  | None => None
  end.
Definition parse_text (t : list text) : option (list stmt) :=
  parse_bytes (Nat.pow 2 12) (List.concat (map text_bytes t)).
