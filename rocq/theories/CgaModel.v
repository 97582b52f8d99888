(** Model of CGAGearPointProperties::getCellID (src/gearcga/CGAGearPointProperties.cc) and of the cached
    CGAGeometryInitializer (src/gearcga/CGAGeometryInitializer.cc).  Mokka's CGAGetCellId is a parameter. *)
From Coq Require Import ZArith List Bool String.
From Verif Require Import Base RBase.
Import ListNotations.
Open Scope Z_scope.

(** (unsigned long long)(int): the value modulo 2^64 *)
Definition to_ull (z : Z) : Z := z mod 18446744073709551616.
(** conversion to long long (two's complement) *)
Definition to_ll (z : Z) : Z := let u := to_ull z in if u <? 9223372036854775808 then u else u - 18446744073709551616.
(** getCellID, lines 24-61.  [id0], [id1], [flag]: what CGAGetCellId returns for the point; ids are int,
    the message to std::cout (44-47) is left out, as is the buffer of the message *)
Definition getCellID (id0 id1 flag : Z) : result Z :=
  if id0 <? 0 then Throw (EGear "outside of world volume")                              (* 36-39 *)
  else if flag =? -1 then Throw (EGear "outside of sensitive volume")                   (* 40-43 *)
  else Ok (to_ll (Z.lor (Z.land (to_ull (Z.shiftl (to_ull id0) 0)) 4294967295)          (* 55-58 *)
                        (Z.land (to_ull (Z.shiftl (to_ull id1) 32)) 18446744069414584320))).

(** GetCGAGeometryInitializer, lines 16-25: CGAInit is called by the first caller only.  The state is the
    arguments CGAInit was called with, one entry for each call. *)
Definition cga_init (calls : list (list string)) (args : list string) : list (list string) :=
  match calls with [] => [args] | _ => calls end.
