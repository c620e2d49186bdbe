(** * Issue: the information section of a new certificate *)

From Coq Require Import NArith ZArith List Bool.
From Verif Require Import PyBase Struct AttCert.
Import ListNotations.
Open Scope Z_scope.

(** hgaa/attcert.py 33 and 35-46, ACInformation.__init__; [random] is what getrandbits(SERIAL_SIZE)
    returns and [now] is int(time.time()). *)
Definition serial_size : Z := 160.
Definition info_new (version : Z) (serial issued : option Z) (random now : Z) : ac_info :=
  Info version (match serial with None => random | Some s => s end) (match issued with None => now | Some t => t end).
