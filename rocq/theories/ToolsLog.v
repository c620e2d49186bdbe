(** * ToolsLog: what hgaa/database.py, hgaa/tools.py and the start of the services record and print

    The functions of [Database] and [Tools] again, with the records given to the loggers in between and
    the texts printed.  A record has the name of its logger ([Logging]). *)

From Coq Require Import NArith ZArith List Bool String.
From Verif Require Import PyBase PyNum Struct AttCert Config Logging PAuth AAuth Database Tools Demo AAuthLog.
Import ListNotations.
Open Scope Z_scope.

(** Records and a result. *)
Definition noted (A : Type) : Type := (list record * A)%type.
Definition note {A} (l : list record) (m : noted A) : noted A := (l ++ fst m, snd m).

Section WithDatabase.
Variable U : unicode.
Variable create_ok : str -> bool.
Variable fk : str -> bool.
(** The tables of a service in the order they are wiped (reversed(base.metadata.sorted_tables)). *)
Variable tables : base -> list str.
(** The names of SERVICE_LOG and SERVICE_TOOLS_LOG (hgaa/tools.py 14). *)
Variables service tools : str.

(** hgaa/database.py 58-64 and 66; '.'.join of None is a TypeError. *)
Definition engine_conf (F : conf_file) (name : str)
  : dres (option str * option str * option str * option str * option str * option str * str) :=
  n <== sconf U F (lit "DB_NAME") name ;;
  u <== sconf U F (lit "DB_USER") name ;;
  p <== sconf U F (lit "DB_PASS") name ;;
  q <== sconf U F (lit "DB_PORT") name ;;
  h <== sconf U F (lit "DB_HOST") name ;;
  t <== sconf U F (lit "DB_TYPE") name ;;
  l <== sconf U F (lit "LOG_NAME") name ;;
  l <== dtext DType l ;;
  DOk (t, u, p, h, q, n, l).
(** hgaa/database.py 53-86, get_engine *)
Definition r_engine (parent : str) (F : conf_file) (w : world) (name : str) : noted (world * dres (option engine)) :=
  match assoc name (w_engines w) with
  | Some e => ([], (w, DOk (Some e)))
  | None =>
      match engine_conf F name with
      | DErr e => ([], (w, DErr e))
      | DOk (t, u, p, h, q, n, l) =>
          let log := child parent l in
          note [Rec log 20 (lit "Creating " ++ show t ++ lit " database engine for " ++ name)]
          match t with
          | None => ([], (w, DErr DAttribute))
          | Some t =>
              match connection U t u p h q n with
              | None => ([Rec log 40 (lit "Database type " ++ t ++ lit " is not supported.")], (w, DOk None))
              | Some url =>
                  note [Rec log 10 (lit "Connection string: " ++ url)]
                  (if create_ok url then
                     let e := Engine (w_next w) url in
                     ([], (World (set_assoc name e (w_engines w)) (S (w_next w)) (w_dbs w), DOk (Some e)))
                   else ([], (w, DErr DCreate)))
              end
          end
      end
  end.

(** hgaa/database.py 11-44, populate_db; the engine is always made under SERVICE_LOG.  Where there is no
    engine or no table the first deletion raises. *)
Definition r_populate (parent : str) (F : conf_file) (w : world) (name : str) (l : list instance) (wipe_first test : bool)
    : noted (world * (list instance * dres unit)) :=
  let cname := if test then name ++ lit "_TEST" else name in
  match (x <== sconf U F (lit "LOG_NAME") cname ;; y <== sconf U F (lit "DB_NAME") cname ;; DOk (x, y)) with
  | DErr e => ([], (w, (l, DErr e)))
  | DOk (lname, dbname) =>
      let '(r1, (w, e)) := r_engine service F w cname in
      note r1
      match e with
      | DErr e => ([], (w, (l, DErr e)))
      | DOk o =>
          match dtext DType lname with
          | DErr e => ([], (w, (l, DErr e)))
          | DOk lname =>
              let log := child parent lname in
              note [Rec log 20 (lit "Starting population of tables for database " ++ show dbname)]
              (let '(r2, (w, r)) :=
                 if wipe_first then
                   note [Rec log 20 (lit "Wiping rows from tables in " ++ show dbname)]
                   match base_named (py_lower U name) with
                   | None => ([Rec log 40 (lit "HGAA name, " ++ name ++ lit ", does not have known database linked to it.")], (w, DErr DUnknown))
                   | Some b =>
                       let lines := map (fun t => Rec log 10 (lit "Wiping table " ++ t ++ lit ".")) (tables b) in
                       match wipe o b w with
                       | (w, DErr e) => (firstn 1 lines, (w, DErr e))
                       | (w, DOk _) =>
                           (lines ++ [Rec log 10 (lit "Committing wipe for " ++ show dbname ++ lit "."); Rec log 20 (lit "Wipe complete.")], (w, DOk tt))
                       end
                   end
                 else ([], (w, DOk tt)) in
               note r2
               match r with
               | DErr e => ([], (w, (l, DErr e)))
               | DOk _ =>
                   note [Rec log 20 (lit "Adding all model instances to " ++ show dbname ++ lit " database.")]
                   match insert fk o l w with
                   | (w, DOk _) => ([Rec log 20 (lit "Population of " ++ show dbname ++ lit " complete.")],
                                    (w, (map (fun i : instance => (fst i, true)) l, DOk tt)))
                   | (w, DErr e) => ([], (w, (l, DErr e)))
                   end
               end)
          end
      end
  end.

(** hgaa/tools.py 21-36 *)
Fixpoint r_build_loop (F : conf_file) (w : world) (services : list str) : noted (world * dres unit) :=
  match services with
  | [] => ([Rec tools 20 (lit "Finished building databases.")], (w, DOk tt))
  | s :: r =>
      match base_named s with
      | None => ([Rec tools 40 (lit "No service with name " ++ s)], (w, DErr DUnknown))
      | Some b =>
          let '(r1, (w, e)) := r_engine tools F w s in
          note r1
          match e with
          | DErr e => ([], (w, DErr e))
          | DOk None => ([Rec tools 40 (lit "Could not make engine for " ++ s)], (w, DErr DNoEngine))
          | DOk (Some e) =>
              note [Rec tools 10 (lit "Creating all tables for service " ++ s); Rec tools 10 (lit "Finished creating tables for service " ++ s)]
              (r_build_loop F (create_all e b w) r)
          end
      end
  end.
(** 18-36, build_database *)
Definition r_build (F : conf_file) (w : world) (services : list str) : noted (world * dres unit) :=
  note [Rec tools 20 (lit "Building databases for services " ++ join (lit ", ") services)] (r_build_loop F w services).
(** 51-64, gen_atts *)
Definition r_gen_atts (F : conf_file) (w : world) (n : Z) : noted (world * dres unit) :=
  note [Rec tools 20 (lit "Generating " ++ str_of_Z n ++ lit " attributes.")]
  (let '(r1, (w, e)) := r_engine service F w s_aauth in
   note r1
   match e with
   | DErr e => ([], (w, DErr e))
   | DOk o =>
       note [Rec tools 20 (lit "Adding attributes to AAUTH database.")]
       match insert fk o (fresh_rows (gen_rows n)) w with
       | (w, DErr e) => ([], (w, DErr e))
       | (w, DOk _) => ([Rec tools 20 (lit "Population of attributes complete.")], (w, DOk tt))
       end
   end).
(** 67-70, pop_and_gen *)
Definition r_pop_and_gen (F : conf_file) (w : world) (n : Z) : noted (world * dres unit) :=
  let '(r1, (w, (_, r))) := r_populate tools F w s_aauth (fresh_rows [RUser dan]) true false in
  note r1 match r with DErr e => ([], (w, DErr e)) | DOk _ => r_gen_atts F w n end.
(** 104-114 *)
Fixpoint r_populate_sets (F : conf_file) (w : world) (l : list base) : noted (world * dres unit) :=
  match l with
  | [] => ([], (w, DOk tt))
  | b :: l =>
      let '(r1, (w, (_, r))) := r_populate tools F w (upper_name b) (fresh_rows (test_rows b)) true false in
      note r1
      match r with
      | DErr e => ([], (w, DErr e))
      | DOk _ => r_populate_sets F w l
      end
  end.

Section WithKeys.
Variable K : crypto.
Variable seal : prv K -> option str -> res bytes.
Variable unseal : bytes -> option str -> res (prv K).
Variable pem : prv K -> bytes.
Variable hashpw : bytes -> res bytes.
Variable can_write : str -> bool.

(** 39-48, gen_aauth_key *)
Definition r_gen_key (key : prv K) (file pass : option str) (t : Tools.tools) : noted (Tools.tools * tres unit) :=
  note [Rec tools 20 (lit "Generating new private/public key pair for AAUTH service.");
        Rec tools 20 (lit "Encrypting new private/public key pair.")]
  match seal key pass with
  | Err e => ([], (t, TErr (TPy e)))
  | Ok data =>
      match file with
      | None => ([], (t, TErr (TPy EType)))
      | Some f =>
          if can_write f then
            ([Rec tools 20 (lit "Saving new private/public key pair to " ++ f); Rec tools 20 (lit "Finished generating key pair.")],
             (ToolState (t_world t) (set_assoc f data (t_files t)) (t_hashes t), TOk tt))
          else ([], (t, TErr TOpen))
      end
  end.
Definition lift (t : Tools.tools) (m : noted (world * dres unit)) : noted (Tools.tools * tres unit) :=
  let '(r, (w, x)) := m in (r, (with_world w t, of_dres x)).
(** 85-131: the records, the texts printed, and the outcome. *)
Definition r_command (F : conf_file) (key : prv K) (c : command) (t : Tools.tools) : noted (list str * (Tools.tools * tres unit)) :=
  let quiet (m : noted (Tools.tools * tres unit)) := (fst m, ([], snd m)) in
  match c with
  | CmdBuild l => quiet (lift t (r_build F (t_world t) l))
  | CmdGenKey =>
      match (f <<- tconf U F (lit "KEY_FILE") s_aauth ;;; p <<- tconf U F (lit "KEY_PASS") s_aauth ;;; TOk (f, p)) with
      | TErr e => ([], ([], (t, TErr e)))
      | TOk (f, p) => quiet (r_gen_key key f p t)
      end
  | CmdPopulate l => quiet (lift t (r_populate_sets F (t_world t) l))
  | CmdPassword s pw =>
      match password_hash U hashpw F s pw with
      | TErr e => ([], ([], (t, TErr e)))
      | TOk h => ([], ([lit "Password: " ++ pw ++ [10%N] ++ lit "Hash: " ++ h],
                       (ToolState (t_world t) (t_files t) (t_hashes t ++ [(pw, h)]), TOk tt)))
      end
  | CmdGenAtts n =>
      match int_base U 10 n with
      | Err e => ([], ([], (t, TErr (TPy e))))
      | Ok n => quiet (lift t (r_gen_atts F (t_world t) n))
      end
  | CmdNothing => ([], ([], (t, TOk tt)))
  end.
(** 74-129: what is printed before the exception for wrong arguments; None where there is none. *)
Definition usage (argv : list str) : option str :=
  match argv with
  | [] => Some (lit "Need at least one command argument. Valid commands are: build, genkey.")
  | c :: args =>
      let c := py_lower U c in
      let unknown a := Some (lit "Unknown key type: " ++ py_lower U a) in
      if str_eqb c (lit "build") then
        match args with [] => Some (lit "Need at least one service name or just ""all""") | _ => None end
      else if str_eqb c (lit "genkey") then
        match args with
        | [a] => if str_eqb (py_lower U a) (lit "aauth") then None else unknown a
        | _ => Some (lit "Need second argument listing key type to generate. Valid types are: aauth.")
        end
      else if str_eqb c (lit "populate") || str_eqb c (lit "pop") then
        match args with
        | [a] => if existsb (str_eqb (py_lower U a)) [lit "all"; lit "aauth"; lit "pauth"] then None else unknown a
        | _ => Some (lit "Need second argument listing service to populate. Valid types are: all, aauth or pauth")
        end
      else if str_eqb c (lit "password") || str_eqb c (lit "pass") then
        match args with
        | [_; _] => None
        | _ => Some (lit "Need second and third argument listing service to make password for and password plaintext.")
        end
      else if str_eqb c (lit "genatts") then
        match args with
        | [_] => None
        | _ => Some (lit "Need second argument giving number of attributes to generate.")
        end
      else None
  end.
(** 73-131 *)
Definition r_main (F : conf_file) (key : prv K) (argv : list str) (t : Tools.tools) : noted (list str * (Tools.tools * tres unit)) :=
  match usage argv with
  | Some text => ([], ([text], (t, TErr TUsage)))
  | None =>
      match dispatch U argv with
      | Some c => r_command F key c t
      | None => ([], ([], (t, TErr TUsage)))
      end
  end.

(** hgaa/services/aauth.py 129-147; [log] is the name of AttributeAuthority.LOG. *)
Definition r_boot (log : str) (F : conf_file) (w : world) (files : list (str * bytes)) : noted (world * tres (booted K)) :=
  match boot_res U K unseal F files with
  | TErr e => ([], (w, TErr e))
  | TOk b =>
      let x := b None in
      note [Rec log 10 (lit "Setup AttributeAuthority with following attributes: aauth_id: " ++ show (bo_name K x) ++ lit ", a_uri: " ++ show (bo_uri K x) ++
                        lit ", rev_uri: " ++ bo_rev_url K x ++ lit ", pub_key: " ++ bytes_str (pem (bo_key K x)) ++ lit ", aa_ver: 1, ac_ver: 1, c_types: [0]");
            Rec log 10 (lit "Setting up issuer AC section.");
            Rec log 10 (lit "Setting up database session for AttributeAuthority")]
      (let '(r, (w, e)) := r_engine service F w s_aauth in
       (r, (w, o <<- of_dres e ;;; TOk (b o))))
  end.
(** 149-183; for an exception its text is given too. *)
Definition r_info (log : str) (bits : prv K -> Z) (b : booted K) (exports : list (str * str)) : noted (aa_info + exc * str) :=
  match export (lit "REMOTE_ADDR") exports with
  | None => ([], inr (EKey, lit "'REMOTE_ADDR'"))
  | Some a =>
      note [Rec log 20 (lit "Info request on AttributeAuthority from " ++ a ++ lit ".")]
      (let missing n := ([], inr (EServerFault, lit "Attribute authority does not have " ++ n ++ lit " attribute set.")) in
       match bo_name K b with
       | None => missing (lit "aauth_id")
       | Some n =>
           match bo_uri K b with
           | None => missing (lit "a_uri")
           | Some u => ([], inl (AAInfo n 1 1 u (bo_rev_url K b) (pem (bo_key K b)) [(lit "USER_PASS", 0)] (lit "RSA") (bits (bo_key K b))
                                   (lit "SHA256") (lit "RSASSA-PKCS1-v1_5")))
           end
       end)
  end.
End WithKeys.

(** hgaa/services/pauth.py 108-128 *)
Definition r_pa_boot (log : str) (F : conf_file) (w : world) : noted (world * tres pa_booted) :=
  match (name <<- tconf U F (lit "PAUTH_NAME") s_pauth ;;;
         uid <<- tconf U F (lit "PAUTH_UID") s_pauth ;;;
         host <<- tconf U F (lit "SERVICE_HOST") (lit "LADON") ;;;
         port <<- tconf U F (lit "SERVICE_PORT") (lit "LADON") ;;;
         host <<- tneed EAttribute host ;;;
         port <<- tneed EType port ;;;
         TOk (PABooted name uid (service_base U host port ++ lit "/PolicyAuthority/jsonwsp/"))) with
  | TErr e => ([], (w, TErr e))
  | TOk b =>
      let x := b None in
      note [Rec log 10 (lit "Setup PolicyAuthority with following attributes: name: " ++ show (pb_name x) ++ lit ", uid: " ++ show (pb_uid x) ++
                        lit ", pa_ver: 1, ac_ver: 1, pl_ver: 1, url: " ++ pb_url x);
            Rec log 10 (lit "Setting up database session for PolicyAuthority")]
      (let '(r, (w, e)) := r_engine service F w s_aauth in
       (r, (w, o <<- of_dres e ;;; TOk (b o))))
  end.
End WithDatabase.

(** 159-170 *)
Definition r_pa_info (log : str) (b : pa_booted) (exports : list (str * str)) : noted (res pa_info) :=
  match export (lit "REMOTE_ADDR") exports with
  | None => ([], Err EKey)
  | Some a => ([Rec log 20 (lit "Info request on PolicyAuthority from " ++ a ++ lit ".")], Ok (PAInfo (pb_url b) 1 (pb_uid b) (pb_name b) 1 1))
  end.
(** 135-157 *)
Definition r_trusted (log : str) (d : pdb) (exports : list (str * str)) : noted (res (list (str * str * str * str * Z * (Z * str)))) :=
  match export (lit "REMOTE_ADDR") exports with
  | None => ([], Err EKey)
  | Some a => ([Rec log 20 (lit "Trusted attribute authorities request on PolicyAuthority from " ++ a ++ lit ".")], Ok (trusted_authorities d))
  end.
