(** * AstCodec: model of hgpl/ast.py ASTEncoder (327-467) *)

From Coq Require Import NArith ZArith List Bool String.
From Coq Require Import Floats.SpecFloat.
From Verif Require Import PyBase PyNum Lexer Values Ast Struct.
Import ListNotations.
Open Scope Z_scope.

(** hgpl/ast.py 98-118, ASTNodeType, and ntype() 162-163. *)
Definition class_val (c : nclass) : Z :=
  match c with
  | CAst => 0 | COp => 11 | CBoolOp => 12 | CNot => 13 | CBoolVal => 21
  | CVal => 30 | CInt => 31 | CFloat => 32 | CString => 33 | CNull => 35
  | CSet _ => 41 | CAtt => 50 | CUsr => 51 | CObj => 52 | CAdm => 53 | CCon => 54 | CEnv => 55
  end.

(** hgpl/ast.py 334-357: the value of a token, its size field and its bytes.  The size of
    a string is its number of characters; the bytes are packed after the header. *)
Definition tval_size (t : token) : res (Z * res bytes) :=
  match t_type t with
  | INT => Ok (4, match t_val t with TInt z => pack_i32 z | _ => Err EStruct end)
  | FLOAT =>
      Ok (4, match t_val t with
             | TFloat f => pack_f32 f
             | TInt z => match binary_normalize 53 1024 z 0 false with
                         | S754_infinity _ => Err EStruct
                         | f => pack_f32 f
                         end
             | _ => Err EStruct
             end)
  | _ =>
      match t_val t with
      | TNone => Ok (0, Ok [])
      | TStr s => b <- utf8_encode s ;; Ok (Z.of_nat (List.length s), Ok (pack_s (List.length s) b))
      | _ => Err EGeneric
      end
  end.

(** hgpl/ast.py 333-377, the bytes of one node without its children. *)
Definition encode_one (n : ast) : res bytes :=
  let 'Node c t i _ ks := n in
  '(sz, tv) <- tval_size t ;;
  h1 <- pack_u 2 i ;; h2 <- pack_u 1 (class_val c) ;; h3 <- pack_u 1 (Z.of_N (ttype_val (t_type t))) ;;
  h4 <- pack_u 2 (t_pos t) ;; h5 <- pack_u 2 sz ;; h6 <- pack_u 2 (Z.of_nat (List.length ks)) ;;
  v <- tv ;;
  ids <- mapM (fun k => pack_u 2 (n_id k)) ks ;;
  Ok (h1 ++ h2 ++ h3 ++ h4 ++ h5 ++ h6 ++ v ++ List.concat ids).

(** hgpl/ast.py 333-389, _encode_node: a node, then its children, depth first. *)
Fixpoint encode_node (n : ast) : res (list bytes) :=
  let 'Node c t i r ks := n in
  b <- encode_one n ;;
  l <- (fix go (l : list ast) : res (list bytes) :=
          match l with
          | [] => Ok []
          | k :: r => x <- encode_node k ;; y <- go r ;; Ok (x ++ y)
          end) ks ;;
  Ok (b :: l).

(** hgpl/ast.py 391-401, encode. *)
Definition encode (a : ast) (b64 : bool) : res bytes :=
  nodes <- encode_node a ;;
  h1 <- pack_u 1 1 ;; h2 <- pack_u 2 (Z.of_nat (List.length nodes)) ;; h3 <- pack_u 2 (n_id a) ;;
  let enc := h1 ++ h2 ++ h3 ++ List.concat nodes in
  Ok (if b64 then b64encode enc else enc).

(** ** Decoding *)

(** A decoded node refers to its children by id: after decoding, the object stored last
    under an id is the one all parents get (hgpl/ast.py 449-457). *)
Record gnode : Type := GN {
  g_cls : nclass; g_tok : token; g_id : Z; g_result : option rval; g_kids : list Z
}.
Definition graph := list (Z * gnode).

Fixpoint gassoc (k : Z) (g : graph) : option gnode :=
  match g with [] => None | (i, n) :: r => if i =? k then Some n else gassoc k r end.
(** [nodes[k] = n]. *)
Fixpoint gset (k : Z) (n : gnode) (g : graph) : graph :=
  match g with
  | [] => [(k, n)]
  | (i, m) :: r => if i =? k then (i, n) :: r else (i, m) :: gset k n r
  end.

(** [TokenType(v)]: ValueError for an unknown number. *)
Definition ttype_of (v : Z) : res ttype :=
  match find (fun t => Z.of_N (ttype_val t) =? v)
    [OP; BOOL_OP; NOT_OP; USR_ATT; OBJ_ATT; ENV_ATT; ADM_ATT; CON_ATT; UNK_ATT; UNK_ID; NULL; BOOL;
     INT; FLOAT; STRING; LSET; RSET; LPARN; RPARN; COMMA; START; END] with
  | Some t => Ok t
  | None => Err EValue
  end.
(** [ASTNodeType(v)] and the class of that name (hgpl/ast.py 443-444): ValueError for an
    unknown number; there is no class Unknown (AttributeError), and ASTNullVal takes no
    argument (TypeError, before the node counter is touched). *)
Definition class_of (v : Z) : res nclass :=
  match find (fun c => class_val c =? v)
    [CAst; COp; CBoolOp; CNot; CBoolVal; CVal; CInt; CFloat; CString; CNull; CSet None;
     CAtt; CUsr; CObj; CAdm; CCon; CEnv] with
  | Some c => Ok c
  | None => if v =? 255 then Err EAttribute else if v =? 34 then Err EType else Err EValue
  end.

(** [k] 16 bit numbers, hgpl/ast.py 435-436. *)
Fixpoint get_ids (k : nat) (b : bytes) : res (list Z * bytes) :=
  match k with
  | O => Ok ([], b)
  | S k => '(x, b) <- get_u 2 b ;; '(l, b) <- get_ids k b ;; Ok (x :: l, b)
  end.

(** hgpl/ast.py 415-439, the fields of one node. *)
Definition get_value (ty sz : Z) (b : bytes) : res (tokval * bytes) :=
  if 0 <? sz then
    '(x, r) <- (let n := Z.to_nat sz in Ok (firstn n b, skipn n b)) ;;
    if ty =? 13 then (if (List.length x =? 4)%nat then Ok (TInt (unpack_i32 x), r) else Err EStruct)
    else if ty =? 14 then (if (List.length x =? 4)%nat then Ok (TFloat (unpack_f32 x), r) else Err EStruct)
    else if Z.of_nat (List.length x) =? sz then s <- utf8_decode x ;; Ok (TStr s, r) else Err EStruct
  else Ok (TNone, b).
Definition get_fields (b : bytes) : res ((Z * Z * Z * Z * tokval * list Z) * bytes) :=
  '(h, b) <- take 10 b ;;
  '(i, h) <- get_u 2 h ;; '(c, h) <- get_u 1 h ;; '(ty, h) <- get_u 1 h ;; '(p, h) <- get_u 2 h ;;
  '(sz, h) <- get_u 2 h ;; '(nk, _) <- get_u 2 h ;;
  '(v, b) <- get_value ty sz b ;;
  '(x, b) <- take (2 * Z.to_nat nk) b ;;
  '(ids, _) <- get_ids (Z.to_nat nk) x ;;
  Ok ((i, c, ty, p, v, ids), b).

Section WithUnicode.
Variable U : unicode.

(** hgpl/ast.py 441-447; [last] is ASTNode._last_id, advanced by the constructor before
    BoolValNode can fail. *)
Definition make_node (f : Z * Z * Z * Z * tokval * list Z) (last : Z) : Z * res gnode :=
  let '(i, c, ty, p, v, ids) := f in
  match ttype_of ty with
  | Err e => (last, Err e)
  | Ok ty =>
      match class_of c with
      | Err e => (last, Err e)
      | Ok c => let t := Tok ty p v in
                (last + 1, r <- init_result U c t ;; Ok (GN c t i r ids))
      end
  end.

(** hgpl/ast.py 414-449, the loop over the nodes. *)
Fixpoint decode_loop (k : nat) (b : bytes) (last : Z) (g : graph) : Z * res graph :=
  match k with
  | O => (last, Ok g)
  | S k =>
      match get_fields b with
      | Err e => (last, Err e)
      | Ok (f, b) =>
          match make_node f last with
          | (last, Err e) => (last, Err e)
          | (last, Ok n) => decode_loop k b last (gset (g_id n) n g)
          end
      end
  end.

(** hgpl/ast.py 451-457: Exception for a child that is not there. *)
Definition resolved (g : graph) : bool :=
  forallb (fun '(_, n) => forallb (fun k => match gassoc k g with Some _ => true | None => false end) (g_kids n)) g.

(** hgpl/ast.py 403-467, decode: the node objects by id and the id of the root, with the
    new value of ASTNode._last_id. *)
Definition decode (b : bytes) (b64 : bool) (last : Z) : Z * res (graph * Z) :=
  match (if b64 then b64decode b else Ok b) with
  | Err e => (last, Err e)
  | Ok b =>
      match ('(h, r) <- take 5 b ;; '(_, h) <- get_u 1 h ;; '(n, h) <- get_u 2 h ;; '(root, _) <- get_u 2 h ;;
             Ok (n, root, r)) with
      | Err e => (last, Err e)
      | Ok (n, root, r) =>
          match decode_loop (Z.to_nat n) r last [] with
          | (last, Err e) => (last, Err e)
          | (last, Ok g) =>
              (last, if negb (resolved g) then Err EGeneric
                     else match gassoc root g with Some _ => Ok (g, root) | None => Err EGeneric end)
          end
      end
  end.

End WithUnicode.
