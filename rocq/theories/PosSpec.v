(** What a position in a text is, and where in a text each kind of error is.  These predicates talk about bytes only;
    of the model they use the names of the errors. *)
From Coq Require Import ZArith List String Ascii Bool.
From Verif Require Import Base XmlModel XmlSpec PosModel.
Import ListNotations.
Open Scope Z_scope.

(** CR LF and LF CR are one line break *)
Definition pair (a b : Z) : bool := ((a =? 13) && (b =? 10)) || ((a =? 10) && (b =? 13)).

(** Read [s] from line [row] and column [col], both counted from 0.  [last] is the byte before [s] if that byte began
    a line break, and 0 otherwise.  A tabulator goes on to the next multiple of four. *)
Fixpoint walk (row col last : Z) (s : string) : Z * Z * Z :=
  match s with
  | EmptyString => (row, col, last)
  | String c t =>
      let b := byte c in
      if pair last b then walk row col 0 t
      else if (b =? 13) || (b =? 10) then walk (row + 1) 0 b t
      else if b =? 9 then walk row (4 * (col / 4 + 1)) 0 t
      else walk row (col + 1) 0 t
  end.

(** line and column of the place behind [s] *)
Definition position (s : string) : Z * Z := fst (walk 0 0 0 s).

Definition ascii_text (s : string) : Prop := all_bytes (fun b => b < 128) s.
Definition spaces (s : string) : Prop := all_bytes space_byte s.

(** [s] = [pre] +++ [suf]: what is at the place of an error *)
Definition at_place (x : xerr) (pre suf : string) : Prop :=
  match x with
  | ErrEndTag =>                        (* an end tag, but of another element *)
      exists r, suf = ("</" +++ r)%string
  | ErrEmptyTag =>                      (* behind a slash in a tag, where > is missing *)
      (exists a, pre = (a +++ "/")%string) /\ (forall r, suf <> String ">" r)
  | ErrName =>                          (* the text ends within the name of an element *)
      (exists a, pre = (a +++ "<")%string) /\ xml_name suf
  | ErrElement =>                       (* an attribute, and the text ends behind it *)
      exists n w r, suf = (n +++ w +++ "=" +++ r)%string /\ xml_name n /\ spaces w
  | ErrAttributes =>
      spaces suf                        (* only white space is left *)
      \/ xml_name suf                   (* the text ends within the name of an attribute *)
      \/ (exists c r, suf = String c r /\ ~ start_byte (byte c))   (* no name where an attribute should be *)
      \/ (exists c r a n w, suf = String c r /\ c <> "="%char /\ pre = (a +++ n +++ w)%string /\ xml_name n /\ spaces w)
                                        (* a name, but no equals sign behind it *)
  | ErrValue | ErrEmptyDoc => False
  end.

(** the errors that come without a place *)
Definition no_place (x : xerr) (s : string) : Prop :=
  match x with
  | ErrValue | ErrEmptyDoc => True
  | ErrAttributes => exists a, s = (a +++ "=")%string
  | _ => False
  end.

(** no byte EF among the last two bytes *)
Definition no_cut_ef (s : string) : Prop :=
  forall a c b, s = (a +++ String c b)%string -> byte c = 239 -> (2 <= String.length b)%nat.
