(** * SpecWhole: a MAKE statement as it is written, and the nodes it stands for (C56, C57)

    Nodes and relationships with their property lists as data (SpecValue); [node_text] and [rel_text]
    give their text (SpecGrammar).  The stored objects are written out as JSON values. *)
From Verif Require Import PyBase Json SpecText SpecPattern SpecGrammar SpecValue Store SpecStore.

Section SpecWhole.
  Context {rt : PyRt}.

  (** a property list { ... } and the white space behind it *)
  Record wprops := { wp_items : list witem; wp_blank : pystr }.
  Definition props_text (q : wprops) : pystr := show_props (wp_items q) ++ wp_blank q.
  (** A '+' is not allowed in a statement. *)
  Record props_drawn (q : wprops) : Prop := {
    pd_some : wp_items q <> [];
    pd_items : Forall item_written (wp_items q);
    pd_legal : Forall item_legal (wp_items q);
    pd_keys : NoDup (map wi_key (wp_items q));
    pd_blank : all_space (wp_blank q);
    pd_plus : ~ In 43%N (show_props (wp_items q)) }.
  Definition some_drawn (o : option wprops) : Prop := forall q, o = Some q -> props_drawn q.

  (** ( s1 handle s2 : s3 label s4 {...} ) s6 *)
  Record dnode := { dn_s1 : pystr; dn_handle : pystr; dn_s2 : pystr; dn_s3 : pystr; dn_label : pystr;
                    dn_s4 : pystr; dn_props : option wprops; dn_s6 : pystr }.
  Definition node_text (n : dnode) : wnode :=
    {| wn_s1 := dn_s1 n; wn_handle := dn_handle n; wn_s2 := dn_s2 n; wn_s3 := dn_s3 n; wn_label := dn_label n;
       wn_s4 := dn_s4 n; wn_props := option_map props_text (dn_props n); wn_s6 := dn_s6 n |}.
  Record node_drawn (n : dnode) : Prop := {
    nd_blanks : Forall all_space [dn_s1 n; dn_s2 n; dn_s3 n; dn_s4 n; dn_s6 n];
    nd_handle : Word (dn_handle n);
    nd_label : Word (dn_label n);
    nd_once : dn_handle n = [] -> dn_s2 n = [];
    nd_label_ne : dn_label n <> [];
    nd_props : some_drawn (dn_props n) }.

  (** -[ s1 handle s2 : s3 name s4 {...} ]-> or <-[ ... ]- , no white space behind the arrow *)
  Record drel := { dr_right : bool; dr_d1 : nat; dr_s1 : pystr; dr_handle : pystr; dr_s2 : pystr; dr_s3 : pystr;
                   dr_name : pystr; dr_s4 : pystr; dr_props : option wprops; dr_d2 : nat }.
  Definition rel_text (r : drel) : wrel :=
    {| wr_lt := negb (dr_right r); wr_d1 := dr_d1 r; wr_s1 := dr_s1 r; wr_handle := dr_handle r; wr_s2 := dr_s2 r;
       wr_colon := true; wr_s3 := dr_s3 r; wr_name := dr_name r; wr_s4 := dr_s4 r;
       wr_props := option_map props_text (dr_props r); wr_d2 := dr_d2 r; wr_gt := dr_right r; wr_s6 := [] |}.
  Record rel_drawn (r : drel) : Prop := {
    rd_blanks : Forall all_space [dr_s1 r; dr_s2 r; dr_s3 r; dr_s4 r];
    rd_handle : Word (dr_handle r);
    rd_name : Word (dr_name r);
    rd_once : dr_handle r = [] -> dr_s2 r = [];
    rd_nameless : dr_name r = [] -> dr_s4 r = [];
    rd_upper : dr_name r = [] \/ str_isupper (dr_name r) = true;
    rd_props : some_drawn (dr_props r) }.

  Inductive dpattern :=
  | One (a : dnode)
  | Two (a : dnode) (r : drel) (b : dnode)
  | Three (a : dnode) (r : drel) (b : dnode) (r' : drel) (c : dnode).
  Definition pattern_text (p : dpattern) : wpattern :=
    match p with
    | One a => OneNode (node_text a)
    | Two a r b => TwoNodes (node_text a) (rel_text r) (node_text b)
    | Three a r b r' c => ThreeNodes (node_text a) (rel_text r) (node_text b) (rel_text r') (node_text c)
    end.
  Definition nodes_in (p : dpattern) : list dnode :=
    match p with One a => [a] | Two a _ b => [a; b] | Three a _ b _ c => [a; b; c] end.
  Definition rels_in (p : dpattern) : list drel :=
    match p with One _ => [] | Two _ r _ => [r] | Three _ r _ r' _ => [r; r'] end.
  (** the handles that were given *)
  Definition handles_in (p : dpattern) : list pystr :=
    filter (fun h => match h with [] => false | _ => true end)
           (match p with
            | One a => [dn_handle a]
            | Two a r b => [dn_handle a; dr_handle r; dn_handle b]
            | Three a r b r' c => [dn_handle a; dr_handle r; dn_handle b; dr_handle r'; dn_handle c]
            end).
  Definition last_drawn (p : dpattern) : dnode := match p with One a => a | Two _ _ b => b | Three _ _ _ _ c => c end.

  (** keyword, patterns with white space before each and commas between them, ';' *)
  Definition texts (l : list (pystr * dpattern)) : list (pystr * wpattern) := map (fun bp => (fst bp, pattern_text (snd bp))) l.
  Definition statement_text (kw : pystr) (l : list (pystr * dpattern)) : pystr := show_statement kw (texts l).
  Record drawn_list (l : list (pystr * dpattern)) : Prop := {
    dl_some : l <> [];
    dl_blanks : Forall (fun bp => all_space (fst bp)) l;
    dl_nodes : Forall (fun bp => Forall node_drawn (nodes_in (snd bp))) l;
    dl_rels : Forall (fun bp => Forall rel_drawn (rels_in (snd bp))) l;
    dl_handles : Forall (fun bp => NoDup (handles_in (snd bp))) l;
    dl_line : no_newline (show_patterns (texts l));
    dl_last : forall l' b p, l = l' ++ [(b, p)] -> dn_s6 (last_drawn p) = [] }.

  (** ** What is stored *)
  Definition meta (n : Z) : pyval :=
    VDict [(py "wn", VInt n); (py "created_at", VFloat import_time); (py "updated_at", VNone)].
  (** null, or the object of exactly the written keys and values, in order; strings are trimmed and literal words in
      lists are respelt (C15, C16), so plain values are stored as written *)
  Definition props_obj (o : option wprops) (v : pyval) : Prop :=
    match o with
    | None => v = VNone
    | Some q => exists d, v = VDict d /\
                  Forall2 (fun i kv => fst kv = wi_key i /\ item_value i (snd kv) /\ (item_plain i -> item_plain_value i (snd kv))) (wp_items q) d
    end.
  Definition rel_obj (n : Z) (r : drel) (left right : Z) (v : pyval) : Prop :=
    exists pv, props_obj (dr_props r) pv /\
      v = VDict [(py "relationship_metadata", meta n); (py "relationship_name", VStr (dr_name r));
                 (py "wn_from_node", VInt (if dr_right r then left else right));
                 (py "wn_to_node", VInt (if dr_right r then right else left));
                 (py "properties", pv)].
  Definition node_obj (n : Z) (x : dnode) (rels : list pyval) (kv : pystr * pyval) : Prop :=
    exists pv, props_obj (dn_props x) pv /\ fst kv = str_of_Z n /\
      snd kv = VDict [(py "node_metadata", meta n); (py "node_label", VStr (dn_label x)); (py "properties", pv);
                      (py "relations", match rels with [] => VNone | _ => VList rels end)].
  Definition if_ {A} (b : bool) (x : A) : list A := if b then [x] else [].

  (** the entries of one pattern whose first number is [w]: nodes are numbered first, then relationships; a
      relationship is listed by the node it starts at; the third node is not stored *)
  Definition pattern_stored (p : dpattern) (w : Z) (items : list (pystr * pyval)) : Prop :=
    match p with
    | One a => exists ea, items = [ea] /\ node_obj w a [] ea
    | Two a r b =>
        exists o ea eb, items = [ea; eb] /\ rel_obj (w + 2) r w (w + 1) o /\
          node_obj w a (if_ (dr_right r) o) ea /\ node_obj (w + 1) b (if_ (negb (dr_right r)) o) eb
    | Three a r b r' c =>
        exists o o' ea eb, items = [ea; eb] /\ rel_obj (w + 3) r w (w + 1) o /\
          (dr_right r' = true -> rel_obj (w + 4) r' (w + 1) (w + 2) o') /\
          node_obj w a (if_ (dr_right r) o) ea /\
          node_obj (w + 1) b (if_ (negb (dr_right r)) o ++ if_ (dr_right r') o') eb
    end.
  Definition count (p : dpattern) : Z := Z.of_nat (List.length (nodes_in p) + List.length (rels_in p)).
  Fixpoint count_all (ps : list dpattern) : Z := match ps with [] => 0 | p :: ps' => count p + count_all ps' end%Z.
  Fixpoint all_stored (ps : list dpattern) (w : Z) (items : list (pystr * pyval)) : Prop :=
    match ps with
    | [] => items = []
    | p :: ps' => exists a b, items = a ++ b /\ pattern_stored p w a /\ all_stored ps' (w + count p)%Z b
    end.

  (** the graph after the MAKE *)
  Record now_contains (l : list (pystr * dpattern)) (G G' : graph) : Prop := {
    nc_db : exists items, g_db G' = g_db G ++ items /\ all_stored (map snd l) (g_next G) items;
    nc_next : g_next G' = (g_next G + count_all (map snd l))%Z;
    nc_labels : forall s, In s (ix_labels (g_ix G')) <->
                  In s (ix_labels (g_ix G)) \/ exists bp n, In bp l /\ In n (nodes_in (snd bp)) /\ dn_label n = s;
    nc_names : forall s, In s (ix_names (g_ix G')) <->
                  In s (ix_names (g_ix G)) \/ (s <> [] /\ exists bp r, In bp l /\ In r (rels_in (snd bp)) /\ dr_name r = s) }.
End SpecWhole.
