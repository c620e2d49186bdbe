(** * Database: model of hgaa/database.py, hgaa/tools.py and of the parts of SQLAlchemy they use

    A database is the set of services whose tables were created and a list of rows.  Texts are
    compared exactly; column lengths are not modelled.  Whether create_engine accepts a
    connection text ([create_ok]) and whether foreign keys are enforced ([fk]; MySQL does,
    SQLite by default does not) are arguments.  Connections do not fail.  Logging is not
    modelled. *)

From Coq Require Import NArith ZArith List Bool String.
From Verif Require Import PyBase Struct AttCert Config Logging PAuth AAuth.
Import ListNotations.
Open Scope Z_scope.

(** ** Tables and rows *)

(** hgaa/schema/__init__.py 4-6 *)
Inductive base : Type := BAAuth | BPAuth.
Definition base_eqb (a b : base) : bool := match a, b with BAAuth, BAAuth => true | BPAuth, BPAuth => true | _, _ => false end.
Definition base_named (s : str) : option base :=
  if str_eqb s (lit "aauth") then Some BAAuth else if str_eqb s (lit "pauth") then Some BPAuth else None.

(** hgaa/schema/pauth.py 32-37 *)
Record env_row : Type := EnvRow { er_uid : str; er_name : option str; er_type : atype; er_value : option str }.
Inductive row : Type :=
| RAtt (r : att_row) | RUser (r : user_row) | RAssign (r : assign_row)
| RTrust (r : aauth_row) | RPolicy (r : policy_row) | REnv (r : env_row)
| RCert (r : cert_row) | RLink (r : link_row) | RSess (r : sess_row).
Definition base_of (r : row) : base :=
  match r with RAtt _ | RUser _ | RAssign _ => BAAuth | _ => BPAuth end.
(** Same table and same primary key. *)
Definition same_key (a b : row) : bool :=
  match a, b with
  | RAtt x, RAtt y => str_eqb (ar_id x) (ar_id y)
  | RUser x, RUser y => us_id x =? us_id y
  | RAssign x, RAssign y => (as_user x =? as_user y) && str_eqb (as_att x) (as_att y)
  | RTrust x, RTrust y => str_eqb (aa_uid x) (aa_uid y)
  | RPolicy x, RPolicy y => str_eqb (po_uid x) (po_uid y)
  | REnv x, REnv y => str_eqb (er_uid x) (er_uid y)
  | RCert x, RCert y => str_eqb (cr_serial x) (cr_serial y)
  | RLink x, RLink y => link_eqb x y
  | RSess x, RSess y => str_eqb (se_id x) (se_id y)
  | _, _ => false
  end.
(** The foreign keys of a row (hgaa/schema/aauth.py 37-38, hgaa/schema/pauth.py 66-67). *)
Definition refs_ok (rows : list row) (r : row) : bool :=
  match r with
  | RAssign x =>
      existsb (fun y => match y with RUser u => us_id u =? as_user x | _ => false end) rows &&
      existsb (fun y => match y with RAtt a => str_eqb (ar_id a) (as_att x) | _ => false end) rows
  | RLink x =>
      existsb (fun y => match y with RCert c => str_eqb (cr_serial c) (lk_serial x) | _ => false end) rows &&
      existsb (fun y => match y with RSess s => str_eqb (se_id s) (lk_session x) | _ => false end) rows
  | _ => true
  end.

Record db : Type := DB { b_built : list base; b_rows : list row }.
Definition built (d : db) (b : base) : bool := existsb (base_eqb b) (b_built d).

(** The tables as the services see them. *)
Definition adb_of (rows : list row) : adb :=
  ADB (flat_map (fun r => match r with RAtt a => [a] | _ => [] end) rows)
      (flat_map (fun r => match r with RUser a => [a] | _ => [] end) rows)
      (flat_map (fun r => match r with RAssign a => [a] | _ => [] end) rows).
Definition pdb_of (rows : list row) : pdb :=
  PDB (flat_map (fun r => match r with RTrust a => [a] | _ => [] end) rows)
      (flat_map (fun r => match r with RPolicy a => [a] | _ => [] end) rows)
      (flat_map (fun r => match r with RCert a => [a] | _ => [] end) rows)
      (flat_map (fun r => match r with RLink a => [a] | _ => [] end) rows)
      (flat_map (fun r => match r with RSess a => [a] | _ => [] end) rows).

(** ** Engines *)

(** An Engine: an identity and the connection text. *)
Record engine : Type := Engine { e_id : nat; e_url : str }.
(** The database of an engine: in memory its own, otherwise the one the text names. *)
Inductive place : Type := InMemory (id : nat) | At (url : str).
Definition place_eqb (a b : place) : bool :=
  match a, b with InMemory i, InMemory j => Nat.eqb i j | At u, At v => str_eqb u v | _, _ => false end.
Definition place_of (e : engine) : place := if str_eqb (e_url e) (lit "sqlite://") then InMemory (e_id e) else At (e_url e).

(** ACTIVE_ENGINES (8), the number of engines made so far, and the databases. *)
Record world : Type := World { w_engines : list (str * engine); w_next : nat; w_dbs : list (place * db) }.
Definition db_at (w : world) (p : place) : db :=
  match find (fun x => place_eqb (fst x) p) (w_dbs w) with Some (_, d) => d | None => DB [] [] end.
Definition set_db (p : place) (d : db) (w : world) : world :=
  World (w_engines w) (w_next w) ((p, d) :: filter (fun x => negb (place_eqb (fst x) p)) (w_dbs w)).

(** Errors: of the configuration; AttributeError and TypeError of None; create_engine;
    UnboundExecutionError of a session without engine; the Exceptions of 31 and of
    hgaa/tools.py 32 and 35; OperationalError of a missing table; IntegrityError. *)
Inductive db_err : Type :=
| DConf (e : conf_err) | DAttribute | DType | DCreate | DUnbound | DUnknown | DNoEngine | DTable | DIntegrity.
Inductive dres (A : Type) : Type := DOk (a : A) | DErr (e : db_err).
Arguments DOk {A}. Arguments DErr {A}.
Definition dbind {A B} (x : dres A) (f : A -> dres B) : dres B := match x with DOk a => f a | DErr e => DErr e end.
Notation "x <== e ;; f" := (dbind e (fun x => f)) (at level 60, e at level 50, right associativity).

Section WithDatabase.
Variable U : unicode.
Variable create_ok : str -> bool.
Variable fk : str -> bool.

Definition sconf (F : conf_file) (name sect : str) : dres (option str) :=
  match get_conf U F service_defaults name sect with CVal v => DOk v | CErr e => DErr (DConf e) end.
Definition dtext (e : db_err) (o : option str) : dres str := match o with Some s => DOk s | None => DErr e end.

(** 58-79: the connection text of an hgaa name, or None for a type that is not supported.
    The services.ini is an argument, so that it may differ from call to call. *)
Definition engine_text (F : conf_file) (name : str) : dres (option str) :=
  n <== sconf F (lit "DB_NAME") name ;;
  u <== sconf F (lit "DB_USER") name ;;
  p <== sconf F (lit "DB_PASS") name ;;
  q <== sconf F (lit "DB_PORT") name ;;
  h <== sconf F (lit "DB_HOST") name ;;
  t <== sconf F (lit "DB_TYPE") name ;;
  l <== sconf F (lit "LOG_NAME") name ;;
  l <== dtext DType l ;;
  t <== dtext DAttribute t ;;
  DOk (connection U t u p h q n).
(** 53-86, get_engine *)
Definition get_engine (F : conf_file) (w : world) (name : str) : world * dres (option engine) :=
  match assoc name (w_engines w) with
  | Some e => (w, DOk (Some e))
  | None =>
      match engine_text F name with
      | DErr e => (w, DErr e)
      | DOk None => (w, DOk None)
      | DOk (Some url) =>
          if create_ok url then
            let e := Engine (w_next w) url in
            (World (set_assoc name e (w_engines w)) (S (w_next w)) (w_dbs w), DOk (Some e))
          else (w, DErr DCreate)
      end
  end.

(** ** Sessions *)

(** A model instance: the row, and whether SQLAlchemy has stored the object already (then
    adding it to a session inserts nothing). *)
Definition instance : Type := (row * bool)%type.
Definition new_rows (l : list instance) : list row := flat_map (fun i : instance => if snd i then [] else [fst i]) l.

(** add_all and commit: all rows or none. *)
Definition insert (o : option engine) (l : list instance) (w : world) : world * dres unit :=
  match new_rows l with
  | [] => (w, DOk tt)
  | rows =>
      match o with
      | None => (w, DErr DUnbound)
      | Some e =>
          let d := db_at w (place_of e) in
          if negb (forallb (fun r => built d (base_of r)) rows) then (w, DErr DTable)
          else if clash same_key rows (b_rows d) then (w, DErr DIntegrity)
          else if fk (e_url e) && negb (forallb (refs_ok (b_rows d ++ rows)) rows) then (w, DErr DIntegrity)
          else (set_db (place_of e) (DB (b_built d) (b_rows d ++ rows)) w, DOk tt)
      end
  end.
(** 33-37: the rows of all tables of a service, deleted and committed. *)
Definition wipe (o : option engine) (b : base) (w : world) : world * dres unit :=
  match o with
  | None => (w, DErr DUnbound)
  | Some e =>
      let d := db_at w (place_of e) in
      if negb (built d b) then (w, DErr DTable)
      else (set_db (place_of e) (DB (b_built d) (filter (fun r => negb (base_eqb (base_of r) b)) (b_rows d))) w, DOk tt)
  end.

(** 11-44, populate_db; the instances are returned as they are afterwards. *)
Definition populate_db (F : conf_file) (w : world) (name : str) (l : list instance) (wipe_first test : bool)
    : world * (list instance * dres unit) :=
  let cname := if test then name ++ lit "_TEST" else name in
  match (x <== sconf F (lit "LOG_NAME") cname ;; y <== sconf F (lit "DB_NAME") cname ;; DOk x) with
  | DErr e => (w, (l, DErr e))
  | DOk lname =>
      match get_engine F w cname with
      | (w, DErr e) => (w, (l, DErr e))
      | (w, DOk o) =>
          match dtext DType lname with
          | DErr e => (w, (l, DErr e))
          | DOk _ =>
              let '(w, r) := if wipe_first then
                               match base_named (py_lower U name) with
                               | None => (w, DErr DUnknown)
                               | Some b => wipe o b w
                               end
                             else (w, DOk tt) in
              match r with
              | DErr e => (w, (l, DErr e))
              | DOk _ =>
                  match insert o l w with
                  | (w, DOk _) => (w, (map (fun i : instance => (fst i, true)) l, DOk tt))
                  | (w, DErr e) => (w, (l, DErr e))
                  end
              end
          end
      end
  end.

(** ** hgaa/tools.py *)

(** create_all and dispose (27-28): missing tables are created; closing the connections of a
    database in memory loses it. *)
Definition create_all (e : engine) (b : base) (w : world) : world :=
  match place_of e with
  | InMemory _ => set_db (place_of e) (DB [] []) w
  | At _ => let d := db_at w (place_of e) in
            set_db (place_of e) (DB (if built d b then b_built d else b_built d ++ [b]) (b_rows d)) w
  end.
(** 18-36, build_database *)
Fixpoint build_database (F : conf_file) (w : world) (services : list str) : world * dres unit :=
  match services with
  | [] => (w, DOk tt)
  | s :: r =>
      match base_named s with
      | None => (w, DErr DUnknown)
      | Some b =>
          match get_engine F w s with
          | (w, DErr e) => (w, DErr e)
          | (w, DOk None) => (w, DErr DNoEngine)
          | (w, DOk (Some e)) => build_database F (create_all e b w) r
          end
      end
  end.

Definition s_aauth : str := lit "AAUTH".
Definition s_pauth : str := lit "PAUTH".
(** 55-58 *)
Definition gen_row (i : nat) : list row :=
  let n := str_of_Z (Z.of_nat i) in
  [RAtt (AttRow (lit "/attribute/user/a" ++ n) (lit "a" ++ n) (Some AInt));
   RAssign (Assign 1 (lit "/attribute/user/a" ++ n) (Some n))].
Definition gen_rows (n : Z) : list row := flat_map gen_row (seq 0 (Z.to_nat n)).
Definition fresh_rows (l : list row) : list instance := map (fun r => (r, false)) l.
(** 51-64, gen_atts *)
Definition gen_atts (F : conf_file) (w : world) (n : Z) : world * dres unit :=
  match get_engine F w s_aauth with
  | (w, DErr e) => (w, DErr e)
  | (w, DOk o) => insert o (fresh_rows (gen_rows n)) w
  end.
(** 67-70, pop_and_gen *)
Definition dan : user_row := UserRow 1 (lit "dan") (lit "$2b$12$QN689kLXzZ.wCmCr8ykOr.lPSoepRtvBZdPHioZYtPTQ9K6ZkWvWq").
Definition pop_and_gen (F : conf_file) (w : world) (n : Z) : world * dres unit :=
  match populate_db F w s_aauth (fresh_rows [RUser dan]) true false with
  | (w, (_, DErr e)) => (w, DErr e)
  | (w, (_, DOk _)) => gen_atts F w n
  end.

End WithDatabase.

(** ** The example rows *)

(** hgaa/schema/test/test_aauth.py 4-32 *)
Definition test_aauth : list row := [
  RUser (UserRow 1 (lit "dan") (lit "$2b$12$QN689kLXzZ.wCmCr8ykOr.lPSoepRtvBZdPHioZYtPTQ9K6ZkWvWq"));
  RUser (UserRow 2 (lit "jess") (lit "$2b$12$zGQE2YzG.IGAy6qsnxCyI.yBJeFSEycPCH.9iuRjn11O2Le9O2LNW"));
  RUser (UserRow 3 (lit "alice") (lit "$2b$12$WTZb9Axx4mOmCmwqtZ.8qu/Z/pUNcsuftJAxloft66M0wCEsA9tO6"));
  RUser (UserRow 4 (lit "bob") (lit "$2b$12$PX3OdDeUgflz9KOJ3aPznuK4gj/aQnPZ96CgIh3J8yX0T0OCmA4Oy"));
  RUser (UserRow 5 (lit "charlie") (lit "$2b$12$c7bvChM0FGg7.ISaMi/jZO9VpDlm8CR2aOnRI7bv6YAb6WCm.ilI2"));
  RUser (UserRow 6 (lit "david") (lit "$2b$12$YdYF3gxSGPi9YOvTLIvu2OGJjlJsRQyZ7/X1LFIEtle72JTQ12/0C"));
  RUser (UserRow 7 (lit "eve") (lit "$2b$12$ztnUuCfMtmaROESHahZPVeHyxbvcyLxMPXY8X9oMMx8XV9wtt.r/6"));
  RAtt (AttRow (lit "/attribute/user/user_id") (lit "user_id") (Some AInt));
  RAtt (AttRow (lit "/attribute/user/name") (lit "name") (Some AString));
  RAtt (AttRow (lit "/attribute/user/age") (lit "age") (Some AInt));
  RAtt (AttRow (lit "/attribute/user/credits") (lit "credits") (Some AFloat));
  RAtt (AttRow (lit "/attribute/user/year_level") (lit "year_level") (Some AInt));
  RAtt (AttRow (lit "/attribute/user/department") (lit "department") (Some AString));
  RAtt (AttRow (lit "/attribute/user/student_type") (lit "student_type") (Some AString));
  RAtt (AttRow (lit "/attribute/user/courses") (lit "courses") (Some ASet));
  RAtt (AttRow (lit "/attribute/user/student") (lit "student") (Some ABool));
  RAtt (AttRow (lit "/attribute/user/staff") (lit "staff") (Some ABool));
  RAtt (AttRow (lit "/attribute/user/admin") (lit "admin") (Some ABool));
  RAtt (AttRow (lit "/attribute/user/office") (lit "office") (Some AString));
  RAtt (AttRow (lit "/attribute/user/account_balance") (lit "account_balance") (Some AFloat));
  RAtt (AttRow (lit "/attribute/user/registered") (lit "registered") (Some ANull));
  RAssign (Assign 1 (lit "/attribute/user/admin") (Some (lit "TRUE")));
  RAssign (Assign 1 (lit "/attribute/user/age") (Some (lit "31")));
  RAssign (Assign 1 (lit "/attribute/user/name") (Some (lit "Daniel Servos")));
  RAssign (Assign 1 (lit "/attribute/user/account_balance") (Some (lit "9999.9999")));
  RAssign (Assign 1 (lit "/attribute/user/courses") (Some (lit "CS2211,CS2034,CS1234,CS5678,CS9000")));
  RAssign (Assign 1 (lit "/attribute/user/registered") None)].
(** hgaa/schema/test/test_pauth.py 4-34; a value 1 is stored as text *)
Definition test_key : str := (lit "-----BEGIN RSA PUBLIC KEY-----") ++ 10%N :: (lit "MIIBIjANBgkqhkiG9w0BAQEFAAOCAQ8AMIIBCgKCAQEA57+4n5L6qOTHD17aeq87") ++ 10%N :: (lit "mwz+HQoJDySnI9E0d5qv4YcdFvYf4uUHL4SsyKvIGsU6mRchqJCWqax0Xefp2Th+") ++ 10%N :: (lit "x3n9oGZFEY0kbX1nnZ2DNVkApf3u7F/Kcka9Euufm66gRhPS6EtX1go3woX0lYvh") ++ 10%N :: (lit "y6FuNlFnvuwc4eYWcr4I9IB65JE8HuXstW7cVVpuHti/4aI24Hsba8ZEtlN8T3oK") ++ 10%N :: (lit "UpUFGLo+YzQTlySeJ3wPpZBevq3NRC82s7mcFl8B5CEJ1o0e9GPMTjrePMd5QLYO") ++ 10%N :: (lit "+MsZ9y6a1B1w4rogpB4QTtZRdWcLmea4koKnlkOwXY3CZhcvxIdGFPsug8OT2v+z") ++ 10%N :: (lit "dwIDAQAB") ++ 10%N :: (lit "-----END RSA PUBLIC KEY-----").
Definition test_pauth : list row := [
  RTrust (AAuth (lit "hgabac://localhost:8888") (lit "localhost") (lit "http://localhost:8888/AttributeAuthority") (lit "RSA") 2048 test_key 100);
  RPolicy (PolicyRow (lit "hgabc://localhost:8888/policy/p1") (Some (lit "p1")) (lit "user.id IN {5, 72, 4, 6, 4} OR user.id = object.owner"));
  RPolicy (PolicyRow (lit "hgabc://localhost:8888/policy/p2") (Some (lit "p2")) (lit "object.required_perms SUBSET user.perms AND user.age >= 18"));
  RPolicy (PolicyRow (lit "hgabc://localhost:8888/policy/p3") (Some (lit "p3")) (lit "user.admin OR (user.role = ""doctor"" AND user.id != object.patient)"));
  REnv (EnvRow (lit "hgabc://localhost:8888/attribute/admin/trust_level") (Some (lit "trust_level")) AInt (Some (lit "50")));
  REnv (EnvRow (lit "hgabc://localhost:8888/attribute/admin/admin_user") (Some (lit "admin_user")) AString (Some (lit "hgabc://localhost:8888/user/dan")));
  REnv (EnvRow (lit "hgabc://localhost:8888/attribute/environment/pl_ver") (Some (lit "pl_ver")) AInt (Some (lit "1")));
  REnv (EnvRow (lit "hgabc://localhost:8888/attribute/environment/pa_ver") (Some (lit "pa_ver")) AInt (Some (lit "1")));
  REnv (EnvRow (lit "hgabc://localhost:8888/attribute/environment/pa_uid") (Some (lit "pa_uid")) AString (Some (lit "hgabc://localhost:8888")));
  REnv (EnvRow (lit "hgabc://localhost:8888/attribute/environment/pa_name") (Some (lit "pa_name")) AString (Some (lit "localhost:8888")))].
