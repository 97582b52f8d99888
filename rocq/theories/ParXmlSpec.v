(** What it takes for parameters to survive being saved and loaded. *)
From Coq Require Import ZArith List String Ascii Bool Reals.
From Verif Require Import Base XmlModel XmlSpec NumModel NumSpec HxModel ParamsModel ParamsSpec ParXmlModel.
Import ListNotations.

(** writing the parameters to a file, and reading the first element of a file *)
Definition save_params (p : params) : result string := rmap (fun n => print_doc [n]) (parameters_toXML p).
Definition load_params (file : string) : result params :=
  match LoadFile file with
  | POk (n :: _, true) => parameters_fromXML n
  | _ => Throw (EParse "")
  end.

(** a word: not empty, no blank, no NUL *)
Definition word (s : string) : Prop := s <> ""%string /\ ~ contains_byte " "%char s /\ no_nul s.

Definition survives (v : pval) : Prop :=
  match v with
  | VInt z => True
  | VDouble x => kept x
  | VString s => word s
  | VInts l => l <> []
  | VDoubles l => l <> [] /\ forall x, In x l -> kept x
  | VStrings l => l <> [] /\ forall s, In s l -> word s
  end.

(** nothing that the text format of the file (C31) or the type int does not have *)
Definition text_ok (v : pval) : Prop :=
  match v with
  | VInt z => is_int z
  | VDouble x => True
  | VString s => charref_free s
  | VInts l => forall z, In z l -> is_int z
  | VDoubles l => True
  | VStrings l => forall s, In s l -> charref_free s
  end.

(** all names and values of the parameter set can be written at all *)
Definition storable (p : params) : Prop :=
  forall t k v, do_get t p k = Ok v -> no_nul k /\ charref_free k /\ text_ok v.
