(** Saving a detector element to a file of its own and loading the file. *)
From Coq Require Import ZArith List String Bool.
From Verif Require Import Base XmlModel.
Import ListNotations.

Definition via_file (n : xnode) : result xnode :=
  match LoadFile (print_doc [n]) with
  | POk (m :: _, true) => Ok m
  | _ => Throw (EParse "")
  end.

(** an object [o] written with [write], sent through a file and read with [read] *)
Definition reload {O} (write : O -> result xnode) (read : xnode -> result O) (o : O) : result O :=
  rbind (write o) (fun n => rbind (via_file n) read).
