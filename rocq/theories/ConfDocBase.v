(** ConfDocBase: what the translated documentation (ConfDocs*.v, written by
    tools/docs2coq.py) uses. *)
From Verif Require Import Base Civil Freq Frame Timeline Board Text ConfBase.
From Coq Require Import QArith String.
Open Scope Z_scope.

Definition base_eqb (a b : base) : bool :=
  match a, b with
  | BS, BS | BT, BT | BH, BH | BD, BD | BM, BM => true
  | BW x, BW y | BQ x, BQ y | BA x, BA y => x =? y
  | _, _ => false
  end.
Definition fstr_eqb (a b : fstr) : bool :=
  match fdigits a, fdigits b with
  | None, None => true | Some p, Some q => Pos.eqb p q | _, _ => false
  end && alias_eqb (falias a) (falias b).
Definition token_eqb (a b : token) : bool :=
  match a, b with
  | TText x, TText y => String.eqb x y
  | TNum x, TNum y | TSched x, TSched y => x =? y
  | TFreq f, TFreq g => fstr_eqb f g
  | TPeriod b x, TPeriod c y => base_eqb b c && (x =? y)
  | _, _ => false
  end.
Definition tokens_eqb : list token -> list token -> bool := list_eqb token_eqb.
Definition tokenss_eqb : list (list token) -> list (list token) -> bool := list_eqb tokens_eqb.

(** A number printed with some sixteen digits. *)
Definition qclose (a b : Q) : bool :=
  Qle_bool (a - b) (1 # 1000000000000) && Qle_bool (b - a) (1 # 1000000000000).

(** A time of a table, printed to the day or to the second. *)
Definition shown (u t x : Z) : bool := (t <=? x) && (x <? t + u).
Definition row_at (df : list (df_row Z * list (Z * bool))) (loc : Z)
           (p : df_row Z -> list (Z * bool) -> bool) : bool :=
  match find (fun q => row_loc (fst q) =? loc) df with
  | Some q => p (fst q) (snd q)
  | None => false
  end.
Definition has_flag (b : list (Z * bool)) (name : Z) (v : bool) : bool :=
  match find (fun q => fst q =? name) b with Some q => Bool.eqb (snd q) v | None => false end.
