(** Model of the command line programs src/test/mergeXML.cc, testXMLCopy.cc and printParameters.cc.

    Simplifications: a disk is a map from names to the bytes of the files that can be read, with the names
    that can be opened for writing; nothing else uses it while a program runs, and a write that was begun
    succeeds.  Only printParameters' standard output is kept.  The texts of exceptions are those of the
    model, which are shorter than the real ones.  The destructors run at the end of testXMLCopy and printParameters are
    left out. *)
From Coq Require Import ZArith List String Ascii Bool.
From Verif Require Import Base XmlModel HxModel MergeModel GearXmlModel UtilModel.
Import ListNotations.
Local Open Scope string_scope.

Record disk := mkDisk { contents : string -> option string; may_write : string -> bool }.
(** TiXmlDocument::SaveFile( name ), tinyxml.cc 1002-1013: the return value and the disk *)
Definition SaveFile (d : disk) (name bytes : string) : bool * disk :=
  if may_write d name
  then (true, mkDisk (fun n => if String.eqb n name then Some bytes else contents d n) (may_write d))
  else (false, d).

(** How a program ends: with a status, or through std::terminate because of an exception *)
Inductive ending := Status (n : Z) | Terminated (e : exn).
Inductive run := Ran (e : ending) (d : disk) | Undefined.

(** what catch( gear::Exception& ) catches, GEAR.h 41-135 *)
Definition is_gear_exception (e : exn) : bool :=
  match e with EUnknownParameter _ | EParse _ | ENotImplemented _ | EGear _ => true | EOutOfRange _ | ELength _ => false end.

(** MergeXML::setFile1 and setFile2 with the name of a file, MergeXML.cc 9-22: a file that cannot be opened is false *)
Definition open1 (m : merger) (bytes : option string) : sres merger bool :=
  match bytes with None => SOk (mkMerger (Some []) (_file2 m) (_domFile m)) false | Some s => setFile1 m s end.
Definition open2 (m : merger) (bytes : option string) : sres merger bool :=
  match bytes with None => SOk (mkMerger (_file1 m) (Some []) (_domFile m)) false | Some s => setFile2 m s end.

(** mergeXML.cc 18-79; [args] without the name of the program.  After the handler in 75-77 main ends without
    a return statement: status 0. *)
Definition merge_main (d : disk) (args : list string) : run :=
  let caught (e : exn) : run := if is_gear_exception e then Ran (Status 0) d else Ran (Terminated e) d in
  match args with
  | fileName1 :: fileName2 :: fileNameNew :: _ =>
      match open1 new_merger (contents d fileName1) with                              (* 48 *)
      | SUB => Undefined
      | SThrow _ e => caught e
      | SOk _ false => Ran (Status 2) d                                               (* 53 *)
      | SOk m true =>
          match open2 m (contents d fileName2) with                                   (* 56 *)
          | SUB => Undefined
          | SThrow _ e => caught e
          | SOk _ false => Ran (Status 2) d                                           (* 61 *)
          | SOk m true =>
              match mergeFiles m with                                                 (* 64 *)
              | SUB => Undefined
              | SThrow _ e => caught e
              | SOk _ None => Ran (Status 1) d                                        (* 69; MergeXML.cc 62 *)
              | SOk _ (Some bytes) =>                                                 (* MergeXML.cc 82 *)
                  match SaveFile d fileNameNew bytes with
                  | (true, d') => Ran (Status 0) d'                                   (* 72 *)
                  | (false, d') => Ran (Status 1) d'                                  (* 69 *)
                  end
              end
          end
      end
  | _ => Ran (Status 1) d                                                             (* 22, 38 *)
  end.

(** testXMLCopy.cc 14-34.  The return value of SaveFile is not looked at (GearXML.cc 466). *)
Definition copy_main (d : disk) (args : list string) : run :=
  match args with
  | [input; output] =>
      match createGearMgr None (contents d input) with                                (* 23-25 *)
      | SUB => Undefined
      | SThrow _ e => Ran (Terminated e) d
      | SOk _ mgr =>
          match createXMLFile mgr with                                                (* 27 *)
          | UB => Undefined
          | Throw e => Ran (Terminated e) d
          | Ok bytes => Ran (Status 0) (snd (SaveFile d output bytes))
          end
      end
  | _ => Ran (Status 1) d                                                             (* 17-21 *)
  end.

(** printParameters.cc 36-60: status and standard output.  Every exception ends in gear_unexpected (15-29). *)
Definition what (e : exn) : string :=
  match e with EUnknownParameter s | EParse s | ENotImplemented s | EGear s | EOutOfRange s | ELength s => s end.
Definition gear_unexpected (e : exn) : printer :=
  text " A runtime error has occured : " ;; text (what e) ;; endl ;; text " the program will have to be terminated - sorry." ;; endl.
Inductive printed := Printed (status : Z) (out : list token) | UndefinedPrint.
Definition ends_with (status : Z) (r : sres stream unit) : printed :=
  match r with SOk s _ => Printed status (st_out s) | _ => UndefinedPrint end.
Definition print_main (ord : string -> bool) (d : disk) (args : list string) : printed :=
  let cout := mkSt [] default_format in
  match args with
  | [] => ends_with 1 ((text " printParameters:  " ;; endl ;; text " usage:     printParameters input.xml  " ;; endl) cout)
  | fileName :: _ =>
      match createGearMgr None (contents d fileName) with                             (* 49-51 *)
      | SUB => UndefinedPrint
      | SThrow _ e => ends_with 1 (gear_unexpected e cout)
      | SOk _ mgr =>
          match (endl ;; text " printParameters - instantiated  GearMgr from file " ;; text fileName ;; endl ;; endl ;; (* 54-56 *)
                 print_mgr ord mgr ;; endl) cout with                                 (* 58 *)
          | SUB => UndefinedPrint
          | SThrow s e => ends_with 1 (gear_unexpected e s)
          | SOk s _ => Printed 0 (st_out s)
          end
      end
  end.
