(** What the user sees of a beam telescope: a table of numbers, one row for each plane. *)
From Coq Require Import ZArith List String Bool Reals.
From Verif Require Import Base RBase TrkModel.
Import ListNotations.
Open Scope R_scope.

(** the columns: the ID and the numbers of the layer, the whole numbers and the numbers of its sensitive part *)
Inductive column := Layer_ID | Layer (f : pfield) | Sensitive_int (f : sint) | Sensitive (f : sfield).
(** what the getter of a column returns *)
Definition read (c : column) (s : siplanes) (i : Z) : result (Z + R) :=
  match c with
  | Layer_ID => rmap inl (si_getID s i)
  | Layer f => rmap inr (si_getLayer f s i)
  | Sensitive_int f => rmap inl (si_getSensitiveZ f s i)
  | Sensitive f => rmap inr (si_getSensitive f s i)
  end.
(** the setter of a column; nothing for a value of the other kind *)
Definition write (c : column) (s : siplanes) (i : Z) (v : Z + R) : option (result siplanes) :=
  match c, v with
  | Layer_ID, inl z => Some (si_setID s i z)
  | Layer f, inr x => Some (si_setLayer f s i x)
  | Sensitive_int f, inl z => Some (si_setSensitiveZ f s i z)
  | Sensitive f, inr x => Some (si_setSensitive f s i x)
  | _, _ => None
  end.
(** the number in column [c] of a plane made from this ladder and this sensitive part *)
Definition entry (c : column) (l : plate) (e : sens) : Z + R :=
  match c with
  | Layer_ID => inl (pl_ID l) | Layer f => inr (pget f l)
  | Sensitive_int f => inl (sgetZ f e) | Sensitive f => inr (sget f e)
  end.
(** everything else: the description of the telescope and of the device under test *)
Definition rest (s : siplanes) := (si_dl s, si_ds s, si_id s, si_type s, si_num s).

(** the operations on a telescope *)
Inductive tele_op := Add (l : plate) (e : sens) | Write (c : column) (i : Z) (v : Z + R) | DUT (l : plate) (e : sens).
(** an operation; one that throws leaves the telescope as it was *)
Definition tele_step (s : siplanes) (o : tele_op) : siplanes :=
  match o with
  | Add l e => si_addLayer s l e
  | Write c i v => match write c s i v with Some (Ok s') => s' | _ => s end
  | DUT l e => mkSi (si_l s) (si_s s) l e (si_id s) (si_type s) (si_num s)
  end.
Definition tele_run (s : siplanes) (os : list tele_op) : siplanes := fold_left tele_step os s.
(** the table: a list of rows; row [i] gives the number in each column *)
Definition table := list (column -> Z + R).
Definition fits (c : column) (v : Z + R) : bool :=
  match c, v with Layer_ID, inl _ | Sensitive_int _, inl _ | Layer _, inr _ | Sensitive _, inr _ => true | _, _ => false end.
Definition column_eq_dec : forall a b : column, {a = b} + {a <> b}.
Proof. decide equality; decide equality; decide equality. Defined.
Definition put (c : column) (v : Z + R) (row : column -> Z + R) : column -> Z + R :=
  fun d => if column_eq_dec d c then v else row d.
Fixpoint put_at (t : table) (i : nat) (c : column) (v : Z + R) : table :=
  match t, i with
  | [], _ => []
  | r :: t', O => put c v r :: t'
  | r :: t', S j => r :: put_at t' j c v
  end.
Definition table_step (t : table) (o : tele_op) : table :=
  match o with
  | Add l e => t ++ [fun c => entry c l e]
  | Write c i v => if fits c v && (0 <=? i)%Z then put_at t (Z.to_nat i) c v else t
  | DUT _ _ => t
  end.

(** TrackerPlanes: layers added one after the other *)
Fixpoint tp_adds (t : tplanes) (ls : list tplayer) : tplanes := match ls with [] => t | l :: r => tp_adds (tp_addLayer t l) r end.
