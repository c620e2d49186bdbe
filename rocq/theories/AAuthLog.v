(** * AAuthLog: model of what the attribute authority records and of the texts of its faults

    hgaa/services/aauth.py again, now with the calls of its logger and the texts of the faults it raises;
    [AAuth] has the same functions without them.  A record is its level and its text; whether it is
    written and where is the business of [Logging].  The texts of the times measured are arguments, as
    is whether the logger is enabled for DEBUG.  Not modelled: exceptions within logging. *)

From Coq Require Import NArith ZArith List Bool String.
From Verif Require Import PyBase PyNum Struct AttCert Logging Demo Show AAuth.
Import ListNotations.
Open Scope Z_scope.

(** ** Records and faults *)

Record lrec : Type := LRec { lr_level : Z; lr_text : str }.
(** logging.DEBUG, INFO, ERROR *)
Definition debug_level : Z := 10.
Definition info_level : Z := 20.
Definition error_level : Z := 40.

(** What ends a request: a ClientFault with its text, or another exception. *)
Inductive stop : Type := Fault (text : str) | Crash (e : exc).
Definition plain_stop (s : stop) : exc := match s with Fault _ => EClientFault | Crash e => e end.

(** A computation with the records made on the way. *)
Definition lw (A : Type) : Type := (list lrec * (A + stop))%type.
Definition lw_ret {A} (a : A) : lw A := ([], inl a).
Definition lw_stop {A} (s : stop) : lw A := ([], inr s).
Definition lw_bind {A B} (m : lw A) (f : A -> lw B) : lw B :=
  match m with
  | (l, inl a) => let '(l', r) := f a in (l ++ l', r)
  | (l, inr s) => (l, inr s)
  end.
Notation "x <$ m ;; k" := (lw_bind m (fun x => k)) (at level 61, m at next level, right associativity).
Notation "' p <$ m ;; k" := (lw_bind m (fun p => k)) (at level 61, p pattern, m at next level, right associativity).
Definition say (lvl : Z) (t : str) : lw unit := ([LRec lvl t], inl tt).
Definition lw_of {A} (m : res A) : lw A := match m with Ok a => lw_ret a | Err e => lw_stop (Crash e) end.

(** ** '%s' % bytes *)

Definition byte_escape (q c : N) : str :=
  if (c =? q)%N || (c =? 92)%N then [92%N; c]
  else if (c =? 9)%N then [92%N; 116%N]
  else if (c =? 10)%N then [92%N; 110%N]
  else if (c =? 13)%N then [92%N; 114%N]
  else if (c <? 32)%N || (127 <=? c)%N then [92%N; 120%N] ++ hex 2 c
  else [c].
Definition bytes_str (b : bytes) : str := lit "b" ++ [quote b] ++ flat_map (byte_escape (quote b)) b ++ [quote b].

(** The texts of the durations of 451, 456, 511, 415, 519 and 524. *)
Record spans : Type := Spans {
  sp_login : str; sp_get : str; sp_process : str; sp_make : str; sp_total : str; sp_attach : str }.
Definition timed (what t : str) : str := what ++ t ++ lit " seconds.".

Section WithCrypto.
Variable K : crypto.
Variable U : unicode.
Variable au : authority K.
Variable checkpw : bytes -> bytes -> res bool.
(** bcrypt.hashpw *)
Variable hashpw : bytes -> bytes -> res bytes.
Variable order : list valued -> list valued.
(** AttributeAuthority.LOG.isEnabledFor(DEBUG) *)
Variable debug : bool.
Variable sp : spans.

(** ** attribute_request *)

(** 433-451 and 527-534 *)
Definition l_authenticate (d : adb) (q : request) (addr : str) : lw (user_row * str) :=
  if negb (rq_type q =? 0) then
    _ <$ say debug_level (lit "ClientFault: Unsupported credential type: " ++ str_of_Z (rq_type q) ++
                          lit " in attribute_request from " ++ addr) ;;
    lw_stop (Fault (lit "Unsupported credential type."))
  else
  match rq_username q with
  | None => lw_stop (Crash EAttribute)
  | Some name =>
      match find (fun u => str_eqb (us_name u) (py_lower U name)) (d_users d) with
      | None =>
          _ <$ say info_level (lit "ClientFault: No such username (" ++ name ++ lit ") found in attribute_request from " ++ addr) ;;
          lw_stop (Fault (lit "Invalid credentials."))
      | Some user =>
          pw <$ lw_of (utf8_encode (str_of_opt (rq_password q) ++ str_of_opt (au_pepper au))) ;;
          hash <$ lw_of (utf8_encode (us_password user)) ;;
          _ <$ (if debug then r <$ lw_of (hashpw pw hash) ;; say debug_level (lit "Hash for request is: " ++ bytes_str r)
                else lw_ret tt) ;;
          ok <$ lw_of (checkpw pw hash) ;;
          if ok then
            _ <$ say info_level (lit "Successful login by " ++ name ++ lit " from " ++ addr ++ lit ".") ;;
            _ <$ say info_level (timed (lit "Time to login: ") (sp_login sp)) ;;
            lw_ret (user, name)
          else
            _ <$ say info_level (lit "ClientFault: Bad password for user " ++ name ++ lit " in attribute_request from " ++ addr) ;;
            lw_stop (Fault (lit "Invalid credentials."))
      end
  end.

(** 486-494; the text of 489-490 has the blanks of the source line in it. *)
Fixpoint l_take_ids (name : str) (by_id : list (str * valued)) (ids : list str) (acc : list (str * valued)) : lw (list (str * valued)) :=
  match ids with
  | [] => lw_ret acc
  | i :: r =>
      match dict_get i by_id with
      | None =>
          _ <$ say info_level (name ++ lit " requested the attribute " ++ i ++
                 lit " but they have not been assigned                             that attribute.") ;;
          lw_stop (Fault (lit "Invalid attribute id: You have not been assigned the attribute " ++ i ++ lit "."))
      | Some a => l_take_ids name by_id r (dict_set (ar_id (fst a)) a acc)
      end
  end.
(** 496-505 *)
Fixpoint l_take_names (name : str) (by_name : list (str * valued)) (names : list str) (acc : list (str * valued)) : lw (list (str * valued)) :=
  match names with
  | [] => lw_ret acc
  | n :: r =>
      match dict_get n by_name with
      | None =>
          _ <$ say info_level (name ++ lit " requested the attribute by name (" ++ n ++
                 lit ") but they have not been assigned an attribute with that name.") ;;
          lw_stop (Fault (lit "Invalid attribute id: You have not been assigned an attribute with the name " ++ n ++ lit "."))
      | Some a => l_take_names name by_name r
                    (match dict_get (ar_id (fst a)) acc with None => dict_set (ar_id (fst a)) a acc | Some _ => acc end)
      end
  end.
(** 470-508; the keys of the dictionary are the ids of its attributes. *)
Definition l_select (name : str) (rows : list valued) (ids names : list str) : lw (list (str * valued)) :=
  match ids, names with
  | [], [] =>
      _ <$ say debug_level (name ++ lit " has requested all attributes.") ;;
      lw_ret (dict_by ar_id rows)
  | _, _ =>
      _ <$ say debug_level (name ++ lit " has requested a subset or their attributes.") ;;
      acc <$ l_take_ids name (dict_by ar_id rows) ids [] ;;
      l_take_names name (dict_by ar_name rows) names acc
  end.

(** 358-425, _make_ac *)
Definition l_make_ac (name : str) (q : request) (sel : list valued) (h : chance) : lw issued :=
  c <$ lw_of (make_cert K U au name q sel h) ;;
  r <$ (match ac_export K c FBytes true (Some (au_key au)) (lit "RSASSA-PKCS1-v1_5:SHA256") with
        | (c, Ok (OutBytes b)) => lw_ret (Issued c b 1 0 (file_name (ch_serial h)))
        | (_, Ok _) => lw_stop (Crash EType)
        | (_, Err e) => lw_stop (Crash e)
        end) ;;
  _ <$ say info_level (timed (lit "AC generation time: ") (sp_make sp)) ;;
  _ <$ say info_level (lit "AC Byte Encoded Size: " ++ str_of_Z (Z.of_nat (List.length (is_data r))) ++ lit " bytes.") ;;
  lw_ret r.

(** 429-534 *)
Definition l_request (d : adb) (q : request) (h : chance) : lw issued :=
  addr <$ (match export (lit "REMOTE_ADDR") (rq_exports q) with None => lw_stop (Crash EKey) | Some a => lw_ret a end) ;;
  _ <$ say info_level (lit "Attribute request on AttributeAuthority from " ++ addr ++ lit ".") ;;
  '(user, name) <$ l_authenticate d q addr ;;
  let rows := order (user_atts d (us_id user)) in
  _ <$ say info_level (timed (lit "Time to get atts: ") (sp_get sp)) ;;
  match rq_ids q, rq_names q with
  | Some ids, Some names =>
      sel <$ l_select name rows (wanted ids) (wanted names) ;;
      _ <$ say info_level (name ++ lit " has activated the following attributes: [" ++ join (lit ", ") (map fst sel) ++ lit "]") ;;
      _ <$ say info_level (timed (lit "Time to proccess atts: ") (sp_process sp)) ;;
      r <$ l_make_ac name q (map snd sel) h ;;
      _ <$ say info_level (timed (lit "Time make AC: ") (sp_total sp)) ;;
      _ <$ say info_level (timed (lit "Time to add attachment: ") (sp_attach sp)) ;;
      lw_ret r
  | _, _ => lw_stop (Crash EType)
  end.

End WithCrypto.

(** The records given to the logger [n] one after the other. *)
Definition emit (n : str) (l : list lrec) (st : logs) : logs := fold_left (fun st r => log n (lr_level r) (lr_text r) st) l st.
