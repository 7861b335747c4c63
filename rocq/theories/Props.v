(** * Props: property strings
    wiggle_query_language/clauses/parsing_helpers/parse_properties.py and
    models/wql/parsing/properties_pre.py *)
From Verif Require Import PyBase Regex Patterns Json Literal.

(** models/wql/enums/property_type.py:4-10 *)
Inductive ptype := PNone | PBool | PFloat | PInt | PList | PString.

Section Props.
  Context {rt : PyRt}.

  (** models/wql/parsing/properties_pre.py:14-48 WiggleGraphPropertyPre:
      the groupdict of a match; the types that are not None, in field order. *)
  Definition found_types (c : caps) : list ptype :=
    let t g x := match cap g c with Some _ => [x] | None => [] end in
    t GNone PNone ++ t GBool PBool ++ t GFloat PFloat ++ t GInt PInt ++ t GList PList ++ t GString PString.

  (** properties_pre.py:24-48 yield_extracted_property *)
  Definition yield_type (c : caps) : res ptype :=
    match found_types c with
    | [t] => Ok t
    | _ => Err PropertyTypeAssignmentError
    end.

  (** parse_properties.py:82-93 handle_null_property *)
  Definition handle_null (v : pystr) : res pyval :=
    if str_eqb v (py "null") then Ok VNone else Err WiggleGraphIllegalPropertyValue.

  (** parse_properties.py:96-118 handle_bool_property *)
  Definition handle_bool (v : pystr) : res pyval :=
    if str_eqb v (py "true") then Ok (VBool true)
    else if str_eqb v (py "false") then Ok (VBool false)
    else Err WiggleGraphIllegalPropertyValue.

  (** parse_properties.py:121-138 handle_float_property *)
  Definition handle_float (v : pystr) : res pyval :=
    if contains (py ".") v then
      match f_repr v with
      | Some t => Ok (VFloat t)
      | None => Err WiggleGraphIllegalPropertyValue
      end
    else Err WiggleGraphIllegalPropertyValue.

  (** parse_properties.py:141-159 handle_int_property; [int] on a text of ASCII digits, which fails when there
      are more of them than the interpreter converts *)
  Definition handle_int (v : pystr) : res pyval :=
    if contains (py ".") v then Err WiggleGraphIllegalPropertyValue
    else match v with
         | [] => Err WiggleGraphIllegalPropertyValue
         | _ => if forallb is_digit0 v && int_fits (N.of_nat (List.length v)) then Ok (VInt (Z.of_N (N_of_digits v)))
                else Err WiggleGraphIllegalPropertyValue
         end.

  (** the three replacements of parse_properties.py:169-173 and parse_statement_checks.py:85-89 *)
  Definition pythonise (v : pystr) : pystr :=
    replace (py "null") (py "None") (replace (py "false") (py "False") (replace (py "true") (py "True") v)).

  (** parse_properties.py:162-179 handle_list_property: only SyntaxError is translated *)
  Definition handle_list (v : pystr) : res pyval :=
    match literal_eval (pythonise v) with
    | Ok x => Ok x
    | Err SyntaxError => Err WiggleGraphIllegalPropertyValue
    | Err e => Err e
    end.

  (** parse_properties.py:182-200 handle_string_property *)
  Definition reserved_strings : list pystr :=
    [py "Null"; py "None"; py "none"; py "true"; py "True"; py "false"; py "False"].
  Definition handle_string (v : pystr) : res pyval :=
    if existsb (str_eqb v) reserved_strings then Err WiggleGraphIllegalPropertyValue
    else Ok (VStr v).

  (** the strip of parse_properties.py:63 *)
  Definition clean (v : pystr) : pystr := strip is_space (strip (N.eqb 39) (strip (N.eqb 34) v)).

  (** parse_properties.py:53-79 handle_extracted_property *)
  Definition handle_extracted (c : caps) (value : pystr) : res pyval :=
    let? t := yield_type c in
    let v := clean value in
    match t with
    | PNone => handle_null v
    | PBool => handle_bool v
    | PFloat => handle_float v
    | PInt => handle_int v
    | PList => handle_list v
    | PString => handle_string v
    end.

  (** one match of the loop parse_properties.py:35-48; the two groups are always set *)
  Definition one_property (c : caps) : res (pystr * pyval) :=
    match cap GPropName c, cap GPropValue c with
    | Some name, Some value =>
        match strip is_space value with
        | [] => Err WiggleGraphIllegalPropertyValue
        | _ => let? v := handle_extracted c value in Ok (name, v)
        end
    | _, _ => Err ValidationError
    end.

  (** parse_properties.py:27-50 parse_properties *)
  Fixpoint props_loop (ms : list (pystr * caps)) (d : list (pystr * pyval)) : res (list (pystr * pyval)) :=
    match ms with
    | [] => Ok d
    | (_, c) :: ms' => let? kv := one_property c in props_loop ms' (d_set (fst kv) (snd kv) d)
    end.
  Definition parse_properties (s : pystr) : res (list (pystr * pyval)) :=
    props_loop (finditer all_properties s) [].

  (** parse_properties.py:12-24 get_property_dict *)
  Definition get_property_dict (s : option pystr) : res (option (list (pystr * pyval))) :=
    match s with
    | None | Some [] => Ok None
    | Some s => let? d := parse_properties s in Ok (Some d)
    end.
End Props.
