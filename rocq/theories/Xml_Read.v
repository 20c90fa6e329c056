(** An XML reader, independent of the writer: it splits a document into tags and
    character data, reads attributes and references, checks names, that no
    attribute occurs twice and that tags nest, and yields the element tree.
    (Only double-quoted attribute values; no comments, CDATA or DTD: text using
    those is not accepted.) *)
From Verif Require Import Base Xml_Spec.

Inductive node := Elem (name : str) (attrs : list (str * str)) (kids : list node) | Txt (s : str).
Inductive event := EStart (name : str) (attrs : list (str * str)) | EEnd (name : str) | EText (s : str).

Definition name_char (c : char) : bool :=
  is_ascii_upper c || is_ascii_lower c || is_ascii_digit c || (c =? 58) || (c =? 95) || (c =? 45) || (c =? 46).
Definition good_name (s : str) : bool := match s with [] => false | _ => forallb name_char s end.

(** Attributes: white space, a name, '=', a quoted value. *)
Inductive astate := ASpace | AName (buf : str) | AEq (name : str) | AVal (name buf : str).
Fixpoint read_attrs (st : astate) (s : str) : option (list (str * str)) :=
  match s with
  | [] => match st with ASpace => Some [] | _ => None end
  | c :: r =>
      match st with
      | ASpace => if c =? 32 then read_attrs (AName []) r else None
      | AName buf => if c =? 61 then (if good_name (rev buf) then read_attrs (AEq (rev buf)) r else None)
                     else read_attrs (AName (c :: buf)) r
      | AEq n => if c =? 34 then read_attrs (AVal n []) r else None
      | AVal n buf =>
          if c =? 34 then
            match parse_attr (rev buf), read_attrs ASpace r with
            | Some v, Some l => if existsb (fun p => str_eqb n (fst p)) l then None else Some ((n, v) :: l)
            | _, _ => None
            end
          else read_attrs (AVal n (c :: buf)) r
      end
  end.

(** The text between '<' and '>'. *)
Fixpoint split_name (s : str) : str * str :=
  match s with
  | [] => ([], [])
  | c :: r => if name_char c then let '(a, b) := split_name r in (c :: a, b) else ([], s)
  end.
Definition read_open (s : str) : option (str * list (str * str)) :=
  let '(n, r) := split_name s in
  if good_name n then match read_attrs ASpace r with Some l => Some (n, l) | None => None end else None.
Definition read_tag (s : str) : option (list event) :=
  match s with
  | 47 :: n => if good_name n then Some [EEnd n] else None
  | _ => match rev s with
         | 47 :: b => match read_open (rev b) with Some (n, l) => Some [EStart n l; EEnd n] | None => None end
         | _ => match read_open s with Some (n, l) => Some [EStart n l] | None => None end
         end
  end.

(** The lexer: outside tags, or inside one (in or out of quotes). *)
Inductive lstate := LText (buf : str) | LTag (quoted : bool) (buf : str).
Definition flush (buf : str) (es : option (list event)) : option (list event) :=
  match buf with
  | [] => es
  | _ => match parse_text (rev buf), es with Some t, Some l => Some (EText t :: l) | _, _ => None end
  end.
Fixpoint lex (st : lstate) (s : str) : option (list event) :=
  match s with
  | [] => match st with LText buf => flush buf (Some []) | LTag _ _ => None end
  | c :: r =>
      match st with
      | LText buf => if c =? 60 then flush buf (lex (LTag false []) r) else lex (LText (c :: buf)) r
      | LTag q buf =>
          if c =? 34 then lex (LTag (negb q) (c :: buf)) r
          else if (c =? 62) && negb q then
            match read_tag (rev buf), lex (LText []) r with
            | Some e, Some l => Some (e ++ l)
            | _, _ => None
            end
          else lex (LTag q (c :: buf)) r
      end
  end.

(** Tags must nest; [stack] holds the open elements with the nodes before them. *)
Fixpoint build (stack : list (str * list (str * str) * list node)) (cur : list node) (es : list event) : option (list node) :=
  match es with
  | [] => match stack with [] => Some (rev cur) | _ => None end
  | EStart n l :: r => build ((n, l, cur) :: stack) [] r
  | EText t :: r => build stack (Txt t :: cur) r
  | EEnd n :: r =>
      match stack with
      | (m, l, before) :: up => if str_eqb n m then build up (Elem m l (rev cur) :: before) r else None
      | [] => None
      end
  end.
Definition read_xml (s : str) : option (list node) :=
  match lex (LText []) s with Some es => build [] [] es | None => None end.
