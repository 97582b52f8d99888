(** Outcomes of C++ calls and ordered string maps.  Nothing here models GEAR code itself
    except where a comment says so. *)
From Coq Require Import ZArith List String Ascii Bool Lia.
Import ListNotations.
Open Scope list_scope.

(** Exceptions GEAR throws (include/gear/GEAR.h 55-165) and the std exceptions it uses. *)
Inductive exn : Type :=
| EUnknownParameter (msg : string)  (* gear::UnknownParameterException, GEAR.h 106-118 *)
| EParse (msg : string)             (* gear::ParseException, GEAR.h 91-103 *)
| ENotImplemented (msg : string)    (* gear::NotImplementedException, GEAR.h 121-133 *)
| EGear (msg : string)              (* gear::Exception itself, GEAR.h 55-87 *)
| EOutOfRange (msg : string)        (* std::out_of_range *)
| ELength (msg : string).           (* std::length_error *)

(** Outcome of a call that does not change its object. [UB] is undefined behaviour. *)
Inductive result (A : Type) : Type :=
| Ok (a : A)
| Throw (e : exn)
| UB.
Arguments Ok {A} a.
Arguments Throw {A} e.
Arguments UB {A}.

Definition rbind {A B} (r : result A) (f : A -> result B) : result B :=
  match r with Ok a => f a | Throw e => Throw e | UB => UB end.
Definition rmap {A B} (f : A -> B) (r : result A) : result B :=
  match r with Ok a => Ok (f a) | Throw e => Throw e | UB => UB end.

(** Outcome of a call on an object of state [S]: the state also exists after a throw. *)
Inductive sres (S A : Type) : Type :=
| SOk (s : S) (a : A)
| SThrow (s : S) (e : exn)
| SUB.
Arguments SOk {S A} s a.
Arguments SThrow {S A} s e.
Arguments SUB {S A}.

(** ** std::map<std::string,V>: association list kept in increasing key order. *)
Definition smap (V : Type) := list (string * V).

(** map::find *)
Fixpoint sm_find {V} (k : string) (m : smap V) : option V :=
  match m with
  | [] => None
  | (k', v) :: t => if String.eqb k k' then Some v else sm_find k t
  end.

(** map::operator[] followed by assignment *)
Fixpoint sm_set {V} (k : string) (v : V) (m : smap V) : smap V :=
  match m with
  | [] => [(k, v)]
  | (k', v') :: t =>
      match String.compare k k' with
      | Eq => (k', v) :: t
      | Lt => (k, v) :: m
      | Gt => (k', v') :: sm_set k v t
      end
  end.

(** iteration over the keys, begin() to end() *)
Definition sm_keys {V} (m : smap V) : list string := map fst m.

(** byte-wise lexicographic order of std::string (char_traits<char>::compare) *)
Definition slt (a b : string) : Prop := String.compare a b = Lt.
