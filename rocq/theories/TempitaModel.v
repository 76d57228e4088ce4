(** Model of the reader of interpolation/tempita/__init__.py: a template text is cut into chunks,
    whitespace around directives is trimmed and the directives are nested.  Definitions only.
    The directives [py:], [def], [default], [inherit], [continue], [break] and comments, which no
    template of the package uses, are not modelled, nor are the positions kept for error messages. *)
From Coq Require Import ZArith List Bool Ascii String.
From Verif Require Import Base.
Import ListNotations.
Open Scope nat_scope.
Open Scope string_scope.
Open Scope list_scope.

(** ** Strings *)
Definition chr (n : nat) : ascii := ascii_of_nat n.
Definition nl : string := String (chr 10) "".
Definition is_c (n : nat) (c : ascii) : bool := Ascii.eqb c (chr n).
(** Blanks removed by [str.strip()]. *)
Definition is_blank (c : ascii) : bool :=
  is_c 32 c || is_c 9 c || is_c 10 c || is_c 11 c || is_c 12 c || is_c 13 c.
Fixpoint rev_app (s acc : string) : string := match s with "" => acc | String c r => rev_app r (String c acc) end.
Definition rev_str (s : string) : string := rev_app s "".
Fixpoint lstrip (p : ascii -> bool) (s : string) : string :=
  match s with String c r => if p c then lstrip p r else s | "" => "" end.
Definition rstrip (p : ascii -> bool) (s : string) : string := rev_str (lstrip p (rev_str s)).
Definition strip (p : ascii -> bool) (s : string) : string := rstrip p (lstrip p s).
Fixpoint drop (n : nat) (s : string) : string :=
  match n, s with S n, String _ r => drop n r | _, _ => s end.
Definition starts (p s : string) : bool := String.prefix p s.
Fixpoint split_on (c : ascii) (s : string) : list string :=
  match s with
  | "" => [""]
  | String x r => if Ascii.eqb x c then "" :: split_on c r
                  else match split_on c r with a :: l => String x a :: l | [] => [String x ""] end
  end.
Definition empty_str (s : string) : bool := match s with "" => true | _ => false end.
Definition blank (s : string) : bool := empty_str (lstrip is_blank s).

(** ** tempita/__init__.py 671-714 [lex] *)
Inductive chunk := CText (s : string) | CCode (s : string).
Definition add_text (acc : string) (l : list chunk) : list chunk :=
  match acc with "" => l | _ => CText (rev_str acc) :: l end.
(** [inside]: between [{{] and [}}]; [acc]: the chunk so far, reversed. *)
Fixpoint lex (inside : bool) (acc s : string) : res (list chunk) :=
  match s with
  | "" => if inside then Err ValueErr else Ok (add_text acc [])
  | String "{" (String "{" r) =>
      if inside then Err ValueErr else (l <- lex true "" r ;; Ok (add_text acc l))
  | String "}" (String "}" r) =>
      if inside then (l <- lex false "" r ;; Ok (CCode (rev_str acc) :: l)) else Err ValueErr
  | String c r => lex inside (String c acc) r
  end.

(** tempita/__init__.py 753-756 *)
Definition statement (item : string) : bool :=
  existsb (fun p => starts p item) ["if "; "elif "; "for "; "def "; "inherit "; "default "; "py:"]
  || existsb (String.eqb item) ["else"; "endif"; "endfor"; "enddef"; "continue"; "break"].
(** [\n\r?[\t ]*$]: position of the first match; [$] also matches before a final newline. *)
Definition at_end (s : string) : bool := empty_str s || String.eqb s nl.
Definition tab_blank (c : ascii) : bool := is_c 32 c || is_c 9 c.
Definition tail_ok (r : string) : bool :=
  at_end (lstrip tab_blank r)
  || match r with String c r' => is_c 13 c && at_end (lstrip tab_blank r') | "" => false end.
Fixpoint trail_white (s : string) : option nat :=
  match s with
  | "" => None
  | String c r => if is_c 10 c && tail_ok r then Some 0 else option_map S (trail_white r)
  end.
(** [^[\t ]*\n]: what follows the match. *)
Definition lead_white (s : string) : option string :=
  match lstrip tab_blank s with String c r => if is_c 10 c then Some r else None | "" => None end.

(** tempita/__init__.py 759-817 [trim_lex]: [before] are the chunks already seen, last first. *)
Fixpoint trim_lex (n i : nat) (last_trim : option nat) (before rest : list chunk) : list chunk :=
  match rest with
  | [] => rev before
  | CText s :: r => trim_lex n (S i) last_trim (CText s :: before) r
  | CCode item :: r =>
      let skip := trim_lex n (S i) last_trim (CCode item :: before) r in
      if negb (statement item) then skip else
      match (match before with [] => Some "" | CText s :: _ => Some s | _ => None end),
            (match r with [] => Some "" | CText s :: _ => Some s | _ => None end) with
      | Some prev, Some next =>
          let first := Nat.eqb i 1 && blank prev in
          let after := match last_trim with Some t => Nat.eqb (t + 2) i && blank prev | None => false end in
          let last := Nat.eqb i (n - 2) && blank next in
          let prev_ok := empty_str prev || (match trail_white prev with Some _ => true | None => false end) || first || after in
          let next_ok := empty_str next || (match lead_white next with Some _ => true | None => false end) || last in
          if prev_ok && next_ok then
            let before' :=
              match before with
              | CText s :: b =>
                  if empty_str s then before
                  else if first || after then CText "" :: b
                  else match trail_white s with Some m => CText (substring 0 (S m) s) :: b | None => before end
              | _ => before
              end in
            match r with
            | CText t :: r' =>
                if empty_str t then trim_lex n (S (S i)) last_trim (CText t :: CCode item :: before') r'
                else
                  let t' := if last then "" else match lead_white t with Some q => q | None => t end in
                  trim_lex n (S (S i)) (Some i) (CText t' :: CCode item :: before') r'
            | _ => trim_lex n (S i) last_trim (CCode item :: before') r
            end
          else skip
      | _, _ => skip
      end
  end.

(** ** tempita/__init__.py 856-871 [parse], 984-1107 *)
Inductive code :=
| KText (s : string)
| KExpr (s : string)
| KIf (parts : list (option string * list code))          (* None: else *)
| KFor (vars : list string) (e : string) (body : list code).

(** 1034, 1057, 1079: a final colon is dropped. *)
Definition no_colon (s : string) : string :=
  match rev_str s with String ":" r => rev_str r | _ => s end.
(** [re.search(r"\s+in\s+", s)] *)
Definition after_in (s : string) : option string :=     (* \s+in\s+ at the beginning *)
  match s with
  | String c _ =>
      if is_blank c then
        match lstrip is_blank s with
        | String "i" (String "n" (String d r)) => if is_blank d then Some (lstrip is_blank r) else None
        | _ => None
        end
      else None
  | "" => None
  end.
Fixpoint cut_in (acc s : string) : option (string * string) :=
  match after_in s with
  | Some e => Some (rev_str acc, e)
  | None => match s with "" => None | String c r => cut_in (String c acc) r end
  end.

(** Codes up to a chunk on which [stop] holds; [fuel] bounds the chunks read. *)
Fixpoint codes (fuel : nat) (stop : string -> bool) (l : list chunk) : res (list code * list chunk) :=
  match fuel with
  | O => Err FuelErr
  | S fuel =>
      let more k r := '(cs, r) <- codes fuel stop r ;; Ok (k :: cs, r) in
      match l with
      | [] => Ok ([], [])
      | CText s :: r => more (KText s) r
      | CCode item :: r =>
          if stop item then Ok ([], l) else
          let e := strip is_blank item in
          if starts "if " e then '(parts, r) <- conds fuel l ;; more (KIf parts) r
          else if starts "for " e then
            match cut_in "" (strip is_blank (drop 3 (no_colon item))) with
            | None => Err ValueErr
            | Some (vars, ex) =>
                let vs := filter (fun v => negb (empty_str v)) (map (strip is_blank) (split_on "," vars)) in
                '(body, r) <- codes fuel (String.eqb "endfor") r ;;
                match r with CCode _ :: r => more (KFor vs ex body) r | _ => Err ValueErr end
            end
          else if statement (e ++ " ")%string || statement e then Err ValueErr
          else more (KExpr item) r
      end
  end
(** 1024-1064 [parse_cond], [parse_one_cond] *)
with conds (fuel : nat) (l : list chunk) : res (list (option string * list code) * list chunk) :=
  match fuel with
  | O => Err FuelErr
  | S fuel =>
      match l with
      | CCode item :: r =>
          if String.eqb item "endif" then Ok ([], r) else
          let first := no_colon item in
          test <- (if starts "if " first then Ok (Some (lstrip is_blank (drop 3 first)))
                   else if starts "elif " first then Ok (Some (lstrip is_blank (drop 5 first)))
                   else if String.eqb first "else" then Ok None else Err AssertErr) ;;
          '(body, r) <- codes fuel (fun s => String.eqb s "endif" || starts "elif " s || String.eqb s "else") r ;;
          '(parts, r) <- conds fuel r ;; Ok ((test, body) :: parts, r)
      | _ => Err ValueErr
      end
  end.

Definition parse (s : string) : res (list code) :=
  l <- lex false "" s ;;
  let l := trim_lex (List.length l) 0 None [] l in
  '(cs, r) <- codes (S (List.length l)) (fun _ => false) l ;;
  match r with [] => Ok cs | _ => Err ValueErr end.
