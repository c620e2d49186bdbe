(** * System: the attribute authority and the policy authority as they run together

    Clients ask the attribute authority for certificates (hgaa/services/aauth.py 429-534) and hand
    certificates to the policy authority (hgaa/services/pauth.py 215-301).  The two services have
    databases of their own; whoever administers the attribute authority may change its database at
    any time.  Requests are served one after another.  The record of the certificates issued
    ([sy_grants], newest first) is kept for the statements only; the services do not have it. *)

From Coq Require Import NArith ZArith List Bool.
From Verif Require Import PyBase AttCert PAuth AAuth.
Import ListNotations.

Record grant : Type := Grant { gr_db : adb; gr_request : request; gr_chance : chance; gr_issued : issued }.
Record system : Type := Sys {
  sy_dir : list (str * bytes);   (* the directory of certificates, hgaa/services/aauth.py 416-421 *)
  sy_adb : adb; sy_pdb : pdb; sy_grants : list grant }.

Inductive event : Type :=
| EAdmin (d : adb)                         (* the attribute authority's database becomes another *)
| EAsk (q : request) (h : chance)
| EStart (service : option str) (set : option (option (list raw_cert))) (sid : Z) (now : nat -> Z) (ip : str).

Section WithCrypto.
Variable K : crypto.
Variable U : unicode.
Variable au : authority K.
Variable checkpw : bytes -> bytes -> res bool.
Variable order : list valued -> list valued.

Definition step (s : system) (e : event) : system :=
  match e with
  | EAdmin d => Sys (sy_dir s) d (sy_pdb s) (sy_grants s)
  | EAsk q h =>
      let '(dir, r) := attribute_request K U au checkpw order (sy_dir s) (sy_adb s) q h in
      Sys dir (sy_adb s) (sy_pdb s)
          (match r with Ok x => Grant (sy_adb s) q h x :: sy_grants s | Err _ => sy_grants s end)
  | EStart service set sid now ip =>
      Sys (sy_dir s) (sy_adb s) (fst (start_session K (sy_pdb s) service set sid now ip)) (sy_grants s)
  end.

End WithCrypto.
