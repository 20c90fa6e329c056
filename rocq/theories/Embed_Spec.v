(** Reading the parts that connect a cell to its embedded image or to its dynamic
    array properties, as a consumer of the file does ([MS-XLSX] 2.3, ECMA-376 18.9):
    cell -> metadata record -> type and future metadata -> rich value -> fields by the
    keys of its structure -> relationship of the rich value part -> file.
    Uses the XML reader only; no writer function. *)
From Verif Require Import Base Xml_Spec Xml_Read SheetXml_Spec Doc_Spec.



Definition at_index {A} (l : list A) (n : N) : option A := nth_error l (N.to_nat n).
Definition named_index (k : string) (a : list (str * str)) : option N := bind (attr k a) number_of.

(** A record of <cellMetadata>/<valueMetadata> by its one-based number: the name of its
    type and the block of future metadata it points to. *)
Definition metadata_record (list_name : string) (md : node) (k : N) : option (str * node) :=
  if k =? 0 then None else
  bind (kid list_name (kids_of md)) (fun records =>
  bind (at_index (kids_of records) (k - 1)) (fun bk =>
  bind (kid "rc" (kids_of bk)) (fun rc =>
  bind (named_index "t" (attrs_of rc)) (fun t =>
  bind (named_index "v" (attrs_of rc)) (fun v =>
  if t =? 0 then None else
  bind (kid "metadataTypes" (kids_of md)) (fun types =>
  bind (at_index (kids_of types) (t - 1)) (fun type =>
  bind (attr "name" (attrs_of type)) (fun name =>
  bind (find (fun n => is_elem "futureMetadata" n && match attr "name" (attrs_of n) with Some x => str_eqb x name | None => false end) (kids_of md)) (fun future =>
  bind (at_index (kids_of future) v) (fun block => Some (name, block))))))))))).

(** The property element inside a block of future metadata. *)
Definition extension (k : string) (block : node) : option node :=
  bind (kid "extLst" (kids_of block)) (fun x => bind (kid "ext" (kids_of x)) (fun y => kid k (kids_of y))).

(** cm="k": the cell holds a dynamic array. *)
Definition is_dynamic_array (md : node) (k : N) : bool :=
  match metadata_record "cellMetadata" md k with
  | Some (name, block) =>
      str_eqb name (lit "XLDAPR") &&
      match extension "xda:dynamicArrayProperties" block with
      | Some p => match attr "fDynamic" (attrs_of p) with Some v => str_eqb v (lit "1") | None => false end
      | None => false
      end
  | None => false
  end.
(** vm="k": the number of the rich value of the cell. *)
Definition rich_value_of (md : node) (k : N) : option N :=
  bind (metadata_record "valueMetadata" md k) (fun x =>
  if str_eqb (fst x) (lit "XLRICHVALUE") then bind (extension "xlrd:rvb" (snd x)) (fun p => named_index "i" (attrs_of p)) else None).

(** The keys of a structure and the values of a rich value. *)
Definition keys_of (structures : node) (k : N) : option (list str) :=
  bind (at_index (kids_of structures) k) (fun s => read_all (fun n => attr "n" (attrs_of n)) (kids_of s)).
Definition values_of (rv : node) : option (list str) := read_all text_of (kids_of rv).
Fixpoint field (key : str) (keys values : list str) : option str :=
  match keys, values with
  | k :: keys', v :: values' => if str_eqb k key then Some v else field key keys' values'
  | _, _ => None
  end.

(** What is found for an image in a cell: the file shown, the description and whether
    it is marked as decorative (CalcOrigin 6 rather than 5). *)
Record picture := { pic_file : str; pic_text : option str; pic_decorative : bool }.
Record image_parts := { ip_metadata : node; ip_values : node; ip_structures : node; ip_rels : node; ip_relationships : node }.
Definition relationship_target (rels : node) (id : str) : option str :=
  bind (find (fun n => is_elem "Relationship" n && match attr "Id" (attrs_of n) with Some x => str_eqb x id | None => false end) (kids_of rels))
    (fun n => attr "Target" (attrs_of n)).
Definition read_picture (p : image_parts) (vm : N) : option picture :=
  bind (rich_value_of (ip_metadata p) vm) (fun i =>
  bind (at_index (kids_of (ip_values p)) i) (fun rv =>
  bind (named_index "s" (attrs_of rv)) (fun s =>
  bind (keys_of (ip_structures p) s) (fun keys =>
  bind (values_of rv) (fun values =>
  bind (field (lit "_rvRel:LocalImageIdentifier") keys values) (fun local =>
  bind (number_of local) (fun n =>
  bind (at_index (kids_of (ip_rels p)) n) (fun r =>
  bind (attr "r:id" (attrs_of r)) (fun id =>
  bind (relationship_target (ip_relationships p) id) (fun target =>
  bind (field (lit "CalcOrigin") keys values) (fun origin =>
  Some {| pic_file := target; pic_text := field (lit "Text") keys values; pic_decorative := str_eqb origin (lit "6") |}))))))))))).
(** Every rich value has one value for each key of its structure. *)
Definition values_fit (p : image_parts) : Prop :=
  Forall (fun rv => exists s keys values, named_index "s" (attrs_of rv) = Some s /\ keys_of (ip_structures p) s = Some keys /\
                    values_of rv = Some values /\ length values = length keys) (kids_of (ip_values p)).
