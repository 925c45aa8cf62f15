(** PrintMarker: what repr(Marker) shows, as the arguments of a call of Marker.
    How the values themselves are written is left to Python. *)
From Verif Require Import Base Freq Frame Setup.
From Coq Require Import String.
Open Scope Z_scope.

(** core.py:1635-1640: [_how_str]; [text] is Python's str() of a function *)
Definition how_str (text : (kwargs -> frame -> fstr -> res (list Z)) -> string) (how : how_arg) : string :=
  match how with HName s => s | HFun fn => text fn end.

(** core.py:1642-1658 Marker.each, Marker.at and Marker.__repr__: "Marker(each=..., at=..., how=...)",
    the last two only if there is something in `at` *)
Definition marker_repr (text : (kwargs -> frame -> fstr -> res (list Z)) -> string)
           (each : fstr) (ats : list kwargs) (how : how_arg) : fstr * option (list kwargs * string) :=
  (each, match ats with [] => None | _ => Some (ats, how_str text how) end).

(** The call that is shown: a `how` that is not shown is the default, one that is shown is text. *)
Definition call_shown (r : fstr * option (list kwargs * string)) : res marker :=
  match r with
  | (each, None) => new_marker each [] (HName "from_start_of_each")
  | (each, Some (ats, how)) => new_marker each ats (HName how)
  end.
