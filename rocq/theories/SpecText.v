(** Specification vocabulary for statements about the text of a source file. *)
From Coq Require Import ZArith List String Ascii.
From Verif Require Import Base PySyntax PySem.
Import ListNotations.
Open Scope Z_scope.

(** One-dimensional arrays. *)
Definition vecT {T} `{Num T} (l : list T) : arr T := mkArr [zlen l] (fun idx => nth (Z.to_nat (hd 0 idx)) l (n_ofZ 0)).
Definition vecZ (l : list Z) : arr Z := mkArr [zlen l] (fun idx => nth (Z.to_nat (hd 0 idx)) l 0).

(** Call the function [f] of the module whose text is [src], with positional arguments [vs] and
    keyword arguments [ks], in the heap [h]; at most [n] nested calls. *)
Definition run_text {T} `{Num T} (src : list text) (n : nat) (f : string) (vs : list (val T)) (ks : list (string * val T)) (h : heap T)
  : res (val T * heap T) :=
  match parse_text src with
  | Some p => run (globals p) p n f vs ks h
  | None => Err ValueErr
  end.

(** Arguments that are whole arrays: the first [n] of the heap. *)
Definition arrays {T} (n : nat) : list (val T) := map (fun l => PArr l []) (seq 0 n).
(** A family of function names: [name] followed by the number of dimensions. *)
Definition dim_name (name : string) (d : nat) : string := (name ++ String (ascii_of_nat (48 + d)) "")%string.
(** C[..., k]. *)
Definition last_comp {T} (C : arr T) (k : Z) : arr T := mkArr (removelast (ashape C)) (fun idx => acell C (idx ++ [k])%list).
