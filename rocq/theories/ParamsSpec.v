(** Vocabulary for stating what a history of set calls on a parameter object means. *)
From Coq Require Import ZArith List String Reals.
From Verif Require Import Base ParamsModel.
Import ListNotations.

(** A value of one of the six parameter types. *)
Inductive pval : Type :=
| VInt (z : Z) | VDouble (r : R) | VString (s : string)
| VInts (l : list Z) | VDoubles (l : list R) | VStrings (l : list string).
Inductive ptype : Type := TInt | TDouble | TString | TInts | TDoubles | TStrings.
Definition type_of (v : pval) : ptype :=
  match v with
  | VInt _ => TInt | VDouble _ => TDouble | VString _ => TString
  | VInts _ => TInts | VDoubles _ => TDoubles | VStrings _ => TStrings
  end.

(** One set call: key and typed value; the C++ method is chosen by the type. *)
Definition set_call : Type := (string * pval)%type.
Definition do_set (p : params) (c : set_call) : params :=
  let (k, v) := c in
  match v with
  | VInt z => setIntVal p k z
  | VDouble r => setDoubleVal p k r
  | VString s => setStringVal p k s
  | VInts l => setIntVals p k l
  | VDoubles l => setDoubleVals p k l
  | VStrings l => setStringVals p k l
  end.
(** A fresh object after the calls [h], first call first. *)
Definition after (h : list set_call) : params := fold_left do_set h params_empty.

(** The getter of a type and the key listing of a type. *)
Definition do_get (t : ptype) (p : params) (k : string) : result pval :=
  match t with
  | TInt => rmap VInt (getIntVal p k)
  | TDouble => rmap VDouble (getDoubleVal p k)
  | TString => rmap VString (getStringVal p k)
  | TInts => rmap VInts (getIntVals p k)
  | TDoubles => rmap VDoubles (getDoubleVals p k)
  | TStrings => rmap VStrings (getStringVals p k)
  end.
Definition do_keys (t : ptype) (p : params) : list string :=
  match t with
  | TInt => getIntKeys p | TDouble => getDoubleKeys p | TString => getStringKeys p
  | TInts => getIntVecKeys p | TDoubles => getDoubleVecKeys p | TStrings => getStringVecKeys p
  end.

(** [v] is what the last call in [h] with key [k] and type [t] stored. *)
Definition last_stored (h : list set_call) (t : ptype) (k : string) (v : pval) : Prop :=
  exists h1 h2, h = h1 ++ (k, v) :: h2 /\ type_of v = t /\
    forall v', In (k, v') h2 -> type_of v' <> t.
Definition never_stored (h : list set_call) (t : ptype) (k : string) : Prop :=
  forall v, In (k, v) h -> type_of v <> t.
