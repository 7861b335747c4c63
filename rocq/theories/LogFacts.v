(** * LogFacts: the records of the log and what they tell *)
From Verif Require Import PyBase BaseFacts Json JsonFacts JsonMore SpecJson RtLaws Regex Patterns Literal Props PropsFacts Checks Statements PatternFacts Data FS FSFacts Store
  SpecStore StoreFacts Make SpecMake MakeFacts MakeRun MakeMore Find Query SpecHistory HistoryFacts SpecCrash Torn SpecShell Confine QueryFacts CrashFacts SpecDurable DurableFacts Log SpecLog.

(** ** Programs *)
Lemma same_refl {A} (m : io A) : same_program m m.
Proof. induction m; constructor; auto. Qed.
Lemma same_trans {A} (a b c : io A) : same_program a b -> same_program b c -> same_program a c.
Proof. intros H; revert c; induction H as [x|e|d k k' H IH]; intros z Z; inversion Z; subst; constructor; auto. Qed.
Lemma same_run {A} (a b : io A) : same_program a b -> forall w, run a w = run b w.
Proof. induction 1 as [x|e|c k k' H IH]; intros w; cbn [run]; auto. destruct (exec c w). auto. Qed.
Lemma same_crash {A} (a b : io A) : same_program a b -> forall w w', crash a w w' -> crash b w w'.
Proof.
  induction 1 as [x|e|c k k' H IH]; intros w w' C; [apply crash_ret in C; subst; constructor|apply crash_throw in C; subst; constructor|].
  apply crash_do_inv in C as [-> |[(p & off & t & t1 & t2 & -> & E & ->)|C]]; [constructor|eapply crash_write; exact E|]. apply crash_later. auto.
Qed.
Lemma same_sym {A} (a b : io A) : same_program a b -> same_program b a.
Proof. induction 1; constructor; auto. Qed.
Lemma same_bind {A B} (a b : io A) (f f' : A -> io B) : same_program a b -> (forall x, same_program (f x) (f' x)) -> same_program (io_bind a f) (io_bind b f').
Proof. induction 1; intros F; cbn [io_bind]; [apply F|constructor|constructor; auto]. Qed.
Lemma same_catch {A} (a b : io A) h h' : same_program a b ->
  (forall e, match h e, h' e with Some x, Some y => same_program x y | None, None => True | _, _ => False end) ->
  same_program (io_catch a h) (io_catch b h').
Proof.
  induction 1 as [x|e|c k k' H IH]; intros F; cbn [io_catch]; [constructor| |constructor; auto].
  specialize (F e). destruct (h e), (h' e); try easy. constructor.
Qed.
Lemma quiet_bind {A B} (m : lio A) (f : A -> lio B) (m' : io A) (f' : A -> io B) : same_program (quiet m) m' ->
  (forall x, same_program (quiet (f x)) (f' x)) -> same_program (quiet (lbind m f)) (io_bind m' f').
Proof.
  intros H F. eapply same_trans; [|apply same_bind; [exact H|exact F]]. clear H m'.
  induction m; cbn [lbind quiet io_bind]; [apply same_refl|constructor|constructor; auto|assumption].
Qed.
Lemma quiet_note {B} l t (f : unit -> lio B) (x : io B) : same_program (quiet (f tt)) x -> same_program (quiet (lbind (note l t) f)) x.
Proof. auto. Qed.
Lemma quiet_mute {A} (m : io A) : same_program (quiet (mute m)) m.
Proof. induction m; cbn; constructor; auto. Qed.
Lemma quiet_notes {A} l (m : lio A) : quiet (notes l m) = quiet m.
Proof. induction l; cbn; auto. Qed.
Lemma quiet_wlift {A} (x : logged A) r : snd x = r -> same_program (quiet (wlift x)) (lift r).
Proof. intros <-. unfold wlift. rewrite quiet_notes. apply quiet_mute. Qed.
Lemma quiet_catch {A} (m : lio A) h m' h' : same_program (quiet m) m' ->
  (forall e, match h e, h' e with Some x, Some y => same_program (quiet x) y | None, None => True | _, _ => False end) ->
  same_program (quiet (lcatch m h)) (io_catch m' h').
Proof.
  intros H F. eapply same_trans; [|apply (same_catch _ _ (fun e => option_map quiet (h e)) h' H); intros e; specialize (F e); destruct (h e), (h' e); easy].
  clear H m'. induction m as [a|e|c k IH|r m IH]; cbn [lcatch quiet io_catch]; [constructor| |constructor; auto|exact IH].
  destruct (h e); cbn; [apply same_refl|constructor].
Qed.
Lemma same_lifts {A B} (r : res A) (f : A -> res B) : same_program (io_bind (lift r) (fun x => lift (f x))) (lift (let? x := r in f x)).
Proof. destruct r; cbn; [apply same_refl|constructor]. Qed.

(** ** Runs *)
Lemma lrun_quiet {A} (m : lio A) w : run (quiet m) w = (snd (fst (lrun m w)), snd (lrun m w)).
Proof.
  revert w; induction m as [a|e|c k IH|r m IH]; intros w; cbn [quiet run lrun]; auto.
  - destruct (exec c w). apply IH.
  - rewrite IH. destruct (lrun m w) as [[l x] w']. reflexivity.
Qed.
Lemma lrun_bind {A B} (m : lio A) (f : A -> lio B) w :
  lrun (lbind m f) w = match lrun m w with
                       | (l, Ok a, w1) => match lrun (f a) w1 with (l', x, w2) => (l ++ l', x, w2) end
                       | (l, Err e, w1) => (l, Err e, w1)
                       end.
Proof.
  revert w; induction m as [a|e|c k IH|r m IH]; intros w; cbn [lbind lrun].
  - destruct (lrun (f a) w) as [[l x] w']. reflexivity.
  - reflexivity.
  - destruct (exec c w). apply IH.
  - rewrite IH. destruct (lrun m w) as [[l [a|e]] w1]; [|reflexivity]. destruct (lrun (f a) w1) as [[l' x] w2]. reflexivity.
Qed.
Lemma lrun_mute {A} (m : io A) w : lrun (mute m) w = ([], fst (run m w), snd (run m w)).
Proof. revert w; induction m as [a|e|c k IH]; intros w; cbn [mute lrun run]; auto. destruct (exec c w). apply IH. Qed.
Lemma lrun_mute_inv {A} (m : io A) w l r w' : lrun (mute m) w = (l, r, w') -> l = [] /\ run m w = (r, w').
Proof. rewrite lrun_mute. destruct (run m w) as [x v]. cbn [fst snd]. intros H. inversion H. auto. Qed.
Lemma lrun_note l t w : lrun (note l t) w = ([(l, t)], Ok tt, w).
Proof. reflexivity. Qed.
Lemma lrun_notes {A} l (m : lio A) w : lrun (notes l m) w = match lrun m w with (l', x, w') => (l ++ l', x, w') end.
Proof. induction l as [|r l IH]; cbn [notes lrun]; [destruct (lrun m w) as [[l' x] w']; reflexivity|]. rewrite IH. destruct (lrun m w) as [[l' x] w']. reflexivity. Qed.
Lemma lrun_wlift {A} (x : logged A) w : lrun (wlift x) w = (fst x, snd x, w).
Proof. unfold wlift. rewrite lrun_notes, lrun_mute, run_lift. cbn [fst snd]. rewrite app_nil_r. reflexivity. Qed.

Lemma lcrash_ret {A} (a : A) w l w' : lcrash (LRet a) w l w' -> l = [] /\ w' = w.
Proof. intros H. inversion H. auto. Qed.
Lemma lcrash_throw {A} e w l w' : lcrash (LThrow e : lio A) w l w' -> l = [] /\ w' = w.
Proof. intros H. inversion H. auto. Qed.
Lemma lcrash_do {A} c (k : resp -> lio A) w l w' : lcrash (LDo c k) w l w' ->
  l = [] /\ w' = w \/
  l = [] /\ (exists p off t t1 t2, c = CWrite p off t /\ t = t1 ++ t2 /\ w' = snd (exec (CWrite p off t1) w)) \/
  lcrash (k (fst (exec c w))) (snd (exec c w)) l w'.
Proof. intros H. inversion H; subst; [left; auto|right; left; split; [reflexivity|eauto 10]|right; right; assumption]. Qed.
Lemma lcrash_llog {A} r (m : lio A) w l w' : lcrash (LLog r m) w l w' -> l = [] /\ w' = w \/ exists l', l = r :: l' /\ lcrash m w l' w'.
Proof. intros H. inversion H; subst; eauto. Qed.
Lemma lcrash_bind {A B} (m : lio A) (f : A -> lio B) : forall w l w', lcrash (lbind m f) w l w' ->
  lcrash m w l w' \/ exists a l1 w1 l2, lrun m w = (l1, Ok a, w1) /\ lcrash (f a) w1 l2 w' /\ l = l1 ++ l2.
Proof.
  induction m as [a|e|c k IH|r m IH]; intros w l w' H; cbn [lbind lrun] in *.
  - right. exists a, [], w, l. auto.
  - left. inversion H; subst. constructor.
  - apply lcrash_do in H as [(-> & ->)|[(-> & p & off & t & t1 & t2 & -> & E & ->)|H]]; [left; constructor|left; eapply lcrash_write; exact E|].
    destruct (IH _ _ _ _ H) as [C|(a & l1 & w1 & l2 & R & C & E)]; [left; apply lcrash_later; exact C|].
    right. exists a, l1, w1, l2. destruct (exec c w). auto.
  - apply lcrash_llog in H as [(-> & ->)|(l' & -> & H)]; [left; constructor|].
    destruct (IH _ _ _ H) as [C|(a & l1 & w1 & l2 & R & C & E)]; [left; apply lcrash_log; exact C|].
    right. exists a, (r :: l1), w1, l2. rewrite R, E. auto.
Qed.
Lemma lcrash_mute {A} (m : io A) : forall w l w', lcrash (mute m) w l w' -> l = [] /\ crash m w w'.
Proof.
  induction m as [a|e|c k IH]; intros w l w' H; cbn [mute] in H.
  - apply lcrash_ret in H as (-> & ->). split; [reflexivity|constructor].
  - apply lcrash_throw in H as (-> & ->). split; [reflexivity|constructor].
  - apply lcrash_do in H as [(-> & ->)|[(-> & p & off & t & t1 & t2 & -> & E & ->)|H]]; [split; [reflexivity|constructor]|split; [reflexivity|eapply crash_write; exact E]|].
    apply IH in H as (-> & H). split; [reflexivity|]. apply crash_later. exact H.
Qed.
Lemma lcrash_wlift {A} (x : logged A) w l w' : lcrash (wlift x) w l w' -> w' = w /\ exists l', fst x = l ++ l'.
Proof.
  unfold wlift. destruct x as [y r]. cbn [fst snd]. revert l. induction y as [|a y IH]; intros l H; cbn [notes] in H.
  - apply lcrash_mute in H as (-> & H). apply crash_lift in H. split; [exact H|exists []; reflexivity].
  - apply lcrash_llog in H as [(-> & ->)|(l' & -> & H)]; [split; [reflexivity|exists (a :: y); reflexivity]|].
    destruct (IH _ H) as (-> & l2 & E). split; [reflexivity|]. exists l2. cbn. congruence.
Qed.
Lemma lcrash_note l t w x w' : lcrash (note l t) w x w' -> w' = w /\ (x = [] \/ x = [(l, t)]).
Proof. intros H. apply lcrash_llog in H as [(-> & ->)|(l' & -> & H)]; [auto|]. apply lcrash_ret in H as (-> & ->). auto. Qed.
Lemma lcrash_quiet {A} (m : lio A) w l w' : lcrash m w l w' -> crash (quiet m) w w'.
Proof. induction 1; cbn [quiet]; [constructor|eapply crash_write; eassumption|apply crash_later; assumption|assumption]. Qed.
Lemma crash_has_log {A} (m : lio A) : forall w w', crash (quiet m) w w' -> exists l, lcrash m w l w'.
Proof.
  induction m as [a|e|c k IH|r m IH]; intros w w' H; cbn [quiet] in H.
  - apply crash_ret in H. subst. exists []. constructor.
  - apply crash_throw in H. subst. exists []. constructor.
  - apply crash_do_inv in H as [-> |[(p & off & t & t1 & t2 & -> & E & ->)|H]]; [exists []; constructor|exists []; eapply lcrash_write; exact E|].
    destruct (IH _ _ _ H) as (l & C). exists l. apply lcrash_later. exact C.
  - destruct (IH _ _ H) as (l & C). exists (r :: l). apply lcrash_log. exact C.
Qed.
Lemma lcrash_end {A} (m : lio A) w l r w' : lrun m w = (l, r, w') -> lcrash m w l w'.
Proof.
  revert w l. induction m as [a|e|c k IH|x m IH]; intros w l H; cbn [lrun] in H.
  - inv H. constructor.
  - inv H. constructor.
  - apply lcrash_later. destruct (exec c w). apply IH. exact H.
  - destruct (lrun m w) as [[l' x'] w1] eqn:E. inv H. apply lcrash_log. eapply IH. exact E.
Qed.

(** ** The logging functions are those without records *)
Section Same.
  Context {rt : PyRt} (lt : pyval -> pystr).

  Lemma snd_wbind {A B} (x : logged A) (f : A -> logged B) r (g : A -> res B) : snd x = r -> (forall a, snd (f a) = g a) -> snd (wbind x f) = bind r g.
  Proof. intros <- F. unfold wbind. destruct (snd x); cbn; auto. Qed.
  Lemma wmapM_snd {A B} (f : A -> logged B) g l : (forall a, snd (f a) = g a) -> snd (wmapM f l) = mapM g l.
  Proof.
    intros F. induction l as [|a l IH]; cbn [wmapM mapM]; [reflexivity|].
    apply snd_wbind; [apply F|]. intros b. apply snd_wbind; [exact IH|]. reflexivity.
  Qed.
  Lemma determined_snd what t r : snd (determined lt what t r) = r.
  Proof. destruct r; reflexivity. Qed.
  Lemma extracted_same c v : snd (handle_extracted_l lt c v) = handle_extracted c v.
  Proof. unfold handle_extracted_l, handle_extracted. apply snd_wbind; [reflexivity|]. intros []; try apply determined_snd; reflexivity. Qed.
  Lemma one_property_same c : snd (one_property_l lt c) = one_property c.
  Proof.
    unfold one_property_l, one_property. destruct (cap GPropName c), (cap GPropValue c); try reflexivity.
    destruct (strip is_space p0); [reflexivity|]. apply snd_wbind; [apply extracted_same|reflexivity].
  Qed.
  Lemma props_loop_same ms d : snd (props_loop_l lt ms d) = props_loop ms d.
  Proof. revert d; induction ms as [|[t c] ms IH]; intros d; cbn [props_loop_l props_loop]; [reflexivity|]. apply snd_wbind; [apply one_property_same|intros; apply IH]. Qed.
  Lemma property_dict_same s : snd (get_property_dict_l lt s) = get_property_dict s.
  Proof. destruct s as [[|c s]|]; cbn [get_property_dict_l get_property_dict]; try reflexivity. apply snd_wbind; [apply props_loop_same|reflexivity]. Qed.
  Lemma make_relationship_same r : snd (make_relationship_l lt r) = make_relationship r.
  Proof. apply snd_wbind; [apply property_dict_same|reflexivity]. Qed.
  Lemma make_node_same n : snd (make_node_l lt n) = make_node n.
  Proof.
    apply snd_wbind; [apply property_dict_same|]. intros props. apply snd_wbind; [|reflexivity].
    destruct (np_rels n) as [|r l]; [reflexivity|]. apply snd_wbind; [apply wmapM_snd; apply make_relationship_same|reflexivity].
  Qed.
  Lemma make_nodes_same m : snd (make_nodes_l lt m) = make_nodes m.
  Proof.
    apply snd_wbind; [apply make_node_same|]. intros l. apply snd_wbind.
    { destruct (mp_middle m); [apply snd_wbind; [apply make_node_same|reflexivity]|reflexivity]. }
    intros md. apply snd_wbind; [|reflexivity].
    destruct (mp_right m); [apply snd_wbind; [apply make_node_same|reflexivity]|reflexivity].
  Qed.
  Lemma find_link_same p a b : snd (find_link_l lt p a b) = find_link p a b.
  Proof.
    unfold find_link_l, find_link. destruct (p_text p) as [[|c t]|]; try reflexivity.
    apply snd_wbind; [apply property_dict_same|]. intros props. apply snd_wbind; [reflexivity|]. intros []; [destruct a|destruct b]; reflexivity.
  Qed.
  Lemma find_pre_same p : snd (process_pattern_find_l lt p) = process_pattern_find p.
  Proof.
    apply snd_wbind; [apply snd_wbind; [apply property_dict_same|reflexivity]|]. intros l.
    apply snd_wbind. { unfold find_middle_l, find_middle. destruct (truthy _); [|reflexivity]. apply snd_wbind; [apply property_dict_same|]. intros. apply snd_wbind; reflexivity. }
    intros m. apply snd_wbind. { unfold find_right_l, find_right. destruct (truthy _); [|reflexivity]. apply snd_wbind; [apply property_dict_same|]. intros. apply snd_wbind; reflexivity. }
    intros r. cbv zeta. apply snd_wbind; [apply find_link_same|]. intros [[l' m'] n1]. apply snd_wbind; [apply find_link_same|]. intros [[m2 r2] n2].
    destruct l'; reflexivity.
  Qed.

  Ltac q := repeat first [ apply same_refl | apply quiet_mute | apply quiet_note | apply quiet_bind; [|intros ?] | apply quiet_wlift ].

  Theorem load_database_same p : same_program (quiet (load_database_l p)) (load_database p).
  Proof.
    unfold load_database_l, load_database. apply quiet_note. apply quiet_catch.
    - eapply same_trans; [eapply (quiet_bind _ _ (read_json p) (fun v => Ret v)); [apply quiet_mute|intros v; apply quiet_note; apply same_refl]|].
      generalize (read_json p). induction i; cbn [io_bind]; constructor; auto.
    - intros []; cbn; auto using same_refl.
  Qed.
  Theorem add_item_same p items : same_program (quiet (add_item_to_database_l p items)) (add_item_to_database p items).
  Proof. unfold add_item_to_database_l, add_item_to_database. q. Qed.
  Theorem wipe_database_same p b : same_program (quiet (wipe_database_l p b)) (wipe_database p b).
  Proof. unfold wipe_database_l, wipe_database. destruct b; q. Qed.
  Theorem load_index_same p name : same_program (quiet (load_index_set_l p name)) (load_index_set p name).
  Proof.
    unfold load_index_set_l, load_index_set. apply quiet_note. apply quiet_catch.
    - apply quiet_bind; [apply quiet_mute|]. intros idx. eapply same_trans; [|apply same_lifts].
      apply quiet_bind; [apply quiet_mute|]. intros v. q.
    - intros []; cbn; auto using same_refl.
  Qed.
  Theorem load_rels_same p : same_program (quiet (load_node_relationships_index_l p)) (load_node_relationships_index p).
  Proof.
    unfold load_node_relationships_index_l, load_node_relationships_index. apply quiet_note. apply quiet_catch.
    - apply quiet_bind; [apply quiet_mute|]. intros idx. eapply same_trans; [|apply same_lifts].
      apply quiet_bind; [apply quiet_mute|]. intros v. q.
    - intros []; cbn; auto using same_refl.
  Qed.
  Theorem wipe_set_same p name b : same_program (quiet (wipe_index_set_l p name b)) (wipe_index p name (VList []) b).
  Proof. unfold wipe_index_set_l, wipe_index_l, wipe_index. destruct b; q. Qed.
  Theorem wipe_rels_same p b : same_program (quiet (wipe_node_relationships_index_l p b)) (wipe_node_relationships_index p b).
  Proof. unfold wipe_node_relationships_index_l, wipe_node_relationships_index, wipe_index_l, wipe_index. destruct b; q. Qed.
  Theorem get_number_same p : same_program (quiet (get_current_wiggle_number_l p)) (get_current_wiggle_number p).
  Proof.
    unfold get_current_wiggle_number_l, get_current_wiggle_number. apply quiet_note. apply quiet_bind; [apply quiet_mute|]. intros [|c t]; [constructor|].
    apply quiet_note. destruct (py_int (c :: t)); cbn; constructor.
  Qed.
  Theorem update_number_same p z : same_program (quiet (update_wiggle_number_l p z)) (update_wiggle_number p z).
  Proof. unfold update_wiggle_number_l, update_wiggle_number. q. Qed.
  Theorem make_same l g : same_program (quiet (make_l lt l g)) (make l g).
  Proof.
    unfold make_l, make. apply quiet_bind; [apply get_number_same|]. intros wn. apply quiet_bind; [apply quiet_mute|]. intros [wn' ms].
    apply quiet_bind; [apply quiet_wlift, wmapM_snd, make_nodes_same|]. intros nss. cbv zeta.
    apply quiet_bind; [apply add_item_same|]. intros _. apply quiet_bind; [apply quiet_mute|]. intros _.
    apply quiet_bind; [apply update_number_same|]. intros _. apply same_refl.
  Qed.
  Theorem find_same f g : same_program (quiet (find_l lt f g)) (find f g).
  Proof.
    unfold find_l, find. apply quiet_bind; [apply quiet_wlift, find_pre_same|]. intros fp. apply quiet_bind.
    - unfold find_short_circuit_l, find_short_circuit. apply quiet_bind; [apply load_index_same|]. intros a. apply quiet_bind; [apply load_index_same|]. intros b.
      destruct (negb _); [apply same_refl|]. destruct (relationship_name_is_in_index _ _); apply same_refl.
    - intros []; [apply same_refl|]. q.
  Qed.
  Theorem query_same q g : same_program (quiet (query_l lt q g)) (query q g).
  Proof.
    unfold query_l, query. apply quiet_bind; [apply quiet_mute|]. intros pq. apply quiet_bind; [|intros _; apply same_refl].
    unfold execute_query_l, execute_query. apply quiet_bind; [destruct (q_make pq) as [[|m ms]|]; [apply same_refl|apply make_same|apply same_refl]|]. intros _.
    destruct (q_find pq) as [f|]; [|apply same_refl]. apply quiet_bind; [apply find_same|]. intros found.
    apply quiet_bind; [destruct (q_report pq); [apply quiet_mute|apply same_refl]|]. intros _. apply same_refl.
  Qed.
End Same.

(** ** Counting *)
Definition no_count (r : record) : Prop := forall n, ~ says_added r n.
Lemma start_count r : firstn 14 (snd r) <> py "Successfully a" -> no_count r.
Proof. destruct r as [v t]. cbn [snd]. intros H n E. apply H. unfold says_added in E. cbn [snd] in E. subst t. reflexivity. Qed.
Ltac nc := apply start_count; cbn; discriminate.
Lemma dec_digits : forall f n acc, Forall (fun c => 48 <= c <= 57)%N acc -> Forall (fun c => 48 <= c <= 57)%N (dec_pos f n acc).
Proof.
  induction f as [|f IH]; intros n acc H; cbn [dec_pos]; [exact H|].
  assert (X : Forall (fun c => 48 <= c <= 57)%N (digit_ch (n mod 10) :: acc)).
  { constructor; [|exact H]. unfold digit_ch. pose proof (N.mod_lt n 10). lia. }
  destruct (N.eqb (n / 10) 0); auto.
Qed.
Lemma str_of_Z_no_letter z c : In c (str_of_Z z) -> (c <= 57)%N.
Proof.
  assert (P : forall p, In c (str_of_N (N.pos p)) -> (c <= 57)%N).
  { intros p H. unfold str_of_N in H. pose proof (dec_digits (S (N.size_nat (N.pos p))) (N.pos p) [] (Forall_nil _)) as D.
    rewrite Forall_forall in D. specialize (D _ H). lia. }
  destruct z as [|p|p]; cbn [str_of_Z In]; [intros [<-|[]]; lia|apply P|intros [<-|H]; [lia|eapply P; exact H]].
Qed.
Lemma m_count v t : In 109%N t -> no_count (v, t).
Proof.
  intros H n E. unfold says_added in E. cbn [snd] in E. subst t. apply in_app_iff in H as [H|H]; [vm_compute in H; intuition discriminate|].
  apply in_app_iff in H as [H|H]; [|vm_compute in H; intuition discriminate]. apply str_of_Z_no_letter in H. lia.
Qed.
Lemma tally_app l l' n m : tally l n -> tally l' m -> tally (l ++ l') (n + m).
Proof. induction 1 as [|r k l j S H IH|r l j N H IH]; intros T; cbn [app]; [exact T| |]; [rewrite <- Nat.add_assoc; constructor; auto|apply tally_other; auto]. Qed.
Lemma tally_zero l : Forall no_count l -> tally l 0.
Proof. induction 1; [constructor|apply tally_other; auto]. Qed.
Section Count.
  Context {rt : PyRt}.
  Lemma tally_unique l n m : tally l n -> tally l m -> n = m.
  Proof.
    intros H; revert m; induction H as [|r n l k S H IH|r l k N H IH]; intros m T; inversion T as [|r' n' l' m' S' T'|r' l' m' N' T']; subst; auto.
    - unfold says_added in S, S'. destruct r as [v t]. cbn [snd] in *. subst t. apply app_inv_head in S'. apply app_inv_tail in S'.
      apply str_of_Z_inj in S'. rewrite (IH _ T'). lia.
    - destruct (N' _ S).
    - destruct (N _ S').
  Qed.
End Count.

(** ** Values *)
Section Values.
  Context {rt : PyRt} (lt : pyval -> pystr).

  (** every record of [l] is about a value *)
  Definition about_value (r : record) : Prop := exists t what, r = (DEBUG, t ++ py " was determined to be " ++ what).
  Lemma about_no_count r : about_value r -> no_count r.
  Proof. intros (t & what & ->). apply m_count. apply in_app_iff. right. apply in_app_iff. left. vm_compute. tauto. Qed.

  Lemma fst_wbind {A B} (P : record -> Prop) (x : logged A) (f : A -> logged B) : Forall P (fst x) -> (forall a, snd x = Ok a -> Forall P (fst (f a))) -> Forall P (fst (wbind x f)).
  Proof. intros H F. unfold wbind. destruct (snd x); cbn [fst]; [apply Forall_app; split; auto|exact H]. Qed.
  Lemma wmapM_fst {A B} P (f : A -> logged B) l : (forall a, Forall P (fst (f a))) -> Forall P (fst (wmapM f l)).
  Proof. intros F. induction l; cbn [wmapM]; [constructor|]. apply fst_wbind; [apply F|]. intros. apply fst_wbind; [exact IHl|]. intros. constructor. Qed.
  Lemma determined_values what t r : Forall about_value (fst (determined lt what t r)).
  Proof. destruct r; cbn [determined fst]; repeat constructor. eexists _, _. reflexivity. Qed.
  Lemma extracted_values c v : Forall about_value (fst (handle_extracted_l lt c v)).
  Proof. apply fst_wbind; [constructor|]. intros []; intros; try apply determined_values; constructor. Qed.
  Lemma property_dict_values s : Forall about_value (fst (get_property_dict_l lt s)).
  Proof.
    destruct s as [[|c s]|]; cbn [get_property_dict_l]; try constructor. apply fst_wbind; [|intros; constructor].
    generalize (@nil (pystr * pyval)). induction (finditer all_properties (c :: s)) as [|[t x] ms IH]; intros d; cbn [props_loop_l]; [constructor|].
    apply fst_wbind; [|intros; apply IH]. unfold one_property_l. destruct (cap GPropName x), (cap GPropValue x); try constructor.
    destruct (strip is_space p0); [constructor|]. apply fst_wbind; [apply extracted_values|intros; constructor].
  Qed.
  Lemma make_node_values n : Forall about_value (fst (make_node_l lt n)).
  Proof.
    apply fst_wbind; [apply property_dict_values|]. intros. apply fst_wbind; [|intros; constructor].
    destruct (np_rels n); [constructor|]. apply fst_wbind; [|intros; constructor]. apply wmapM_fst. intros r0.
    apply fst_wbind; [apply property_dict_values|intros; constructor].
  Qed.
  Lemma make_nodes_values m : Forall about_value (fst (make_nodes_l lt m)).
  Proof.
    apply fst_wbind; [apply make_node_values|]. intros. apply fst_wbind.
    { destruct (mp_middle m); [apply fst_wbind; [apply make_node_values|]; intros; constructor|constructor]. }
    intros. apply fst_wbind; [|intros; constructor].
    destruct (mp_right m); [apply fst_wbind; [apply make_node_values|]; intros; constructor|constructor].
  Qed.
  Lemma find_values p : Forall about_value (fst (process_pattern_find_l lt p)).
  Proof.
    assert (L : forall x a b, Forall about_value (fst (find_link_l lt x a b))).
    { intros x a b. unfold find_link_l. destruct (p_text x) as [[|c t]|]; try constructor. apply fst_wbind; [apply property_dict_values|]. intros.
      apply fst_wbind; [constructor|]. intros [] _; [destruct a|destruct b]; constructor. }
    apply fst_wbind; [apply fst_wbind; [apply property_dict_values|intros; constructor]|]. intros.
    apply fst_wbind. { unfold find_middle_l. destruct (truthy _); [|constructor]. apply fst_wbind; [apply property_dict_values|]. intros. apply fst_wbind; constructor. }
    intros. apply fst_wbind. { unfold find_right_l. destruct (truthy _); [|constructor]. apply fst_wbind; [apply property_dict_values|]. intros. apply fst_wbind; constructor. }
    intros. cbv zeta. apply fst_wbind; [apply L|]. intros [[? ?] ?] _. apply fst_wbind; [apply L|]. intros [[? ?] ?] _. destruct o; constructor.
  Qed.

  (** *** Strings in clear *)
  Definition shown (log : list record) (s : pystr) : Prop := exists r, In r log /\ in_clear s r.
  Lemma shown_l l l' s : shown l s -> shown (l ++ l') s.
  Proof. intros (r & I & C). exists r. split; [apply in_app_iff; auto|exact C]. Qed.
  Lemma shown_r l l' s : shown l' s -> shown (l ++ l') s.
  Proof. intros (r & I & C). exists r. split; [apply in_app_iff; auto|exact C]. Qed.
  Lemma wbind_ok {A B} (x : logged A) (f : A -> logged B) b : snd (wbind x f) = Ok b ->
    exists a, snd x = Ok a /\ snd (f a) = Ok b /\ fst (wbind x f) = fst x ++ fst (f a).
  Proof. unfold wbind. destruct (snd x); cbn [snd fst]; intros H; [|discriminate]. eauto. Qed.
  Lemma determined_shows what t r s : snd (determined lt what t r) = Ok (VStr s) -> shown (fst (determined lt what t r)) s.
  Proof.
    rewrite determined_snd. intros ->. cbn [determined fst value_text]. eexists. split; [left; reflexivity|]. exists t, what. reflexivity.
  Qed.
  Lemma extracted_shows c v s : snd (handle_extracted_l lt c v) = Ok (VStr s) -> shown (fst (handle_extracted_l lt c v)) s.
  Proof.
    intros H. unfold handle_extracted_l in *. apply wbind_ok in H as (t & T & H & ->). apply shown_r.
    destruct t; try (apply determined_shows; exact H). cbn in H. unfold handle_null in H. destruct (str_eqb _ _); discriminate.
  Qed.
  Lemma d_set_in {A} k (v : A) d kv : In kv (d_set k v d) -> kv = (k, v) \/ In kv d.
  Proof.
    induction d as [|[k' v'] d IH]; cbn [d_set]; [intros [<-|[]]; auto|]. destruct (str_eqb k k') eqn:E.
    - apply str_eqb_eq in E. subst. intros [<-|H]; [left; reflexivity|right; right; exact H].
    - intros [<-|H]; [right; left; reflexivity|]. destruct (IH H); [auto|right; right; assumption].
  Qed.
  Lemma property_dict_shows o d k s : snd (get_property_dict_l lt o) = Ok (Some d) -> In (k, VStr s) d -> shown (fst (get_property_dict_l lt o)) s.
  Proof.
    destruct o as [[|c x]|]; cbn [get_property_dict_l]; try discriminate. intros H I. apply wbind_ok in H as (d' & H & E & ->). cbn in E. inv E. apply shown_l.
    assert (G : forall ms d0, snd (props_loop_l lt ms d0) = Ok d -> In (k, VStr s) d -> In (k, VStr s) d0 \/ shown (fst (props_loop_l lt ms d0)) s).
    { clear. induction ms as [|[t c] ms IH]; intros d0 H I; cbn [props_loop_l] in *; [inv H; auto|].
      apply wbind_ok in H as ([k' v'] & H1 & H2 & ->). destruct (IH _ H2 I) as [D|S]; [|right; apply shown_r; exact S].
      cbn [fst snd] in D. apply d_set_in in D as [E|D]; [|left; exact D]. inv E. right. apply shown_l.
      unfold one_property_l in *. destruct (cap GPropName c), (cap GPropValue c); try discriminate.
      destruct (strip is_space p0); [discriminate|]. apply wbind_ok in H1 as (v & H1 & E & ->). inv E. apply shown_l. apply extracted_shows. exact H1. }
    destruct (G _ _ H I) as [[]|S]. exact S.
  Qed.
  Lemma relationship_shows r x s : snd (make_relationship_l lt r) = Ok x -> own_string (rel_val x) s -> shown (fst (make_relationship_l lt r)) s.
  Proof.
    unfold make_relationship_l. intros H (d & ps & k & E & G & I). apply wbind_ok in H as (props & H1 & H2 & ->). apply shown_l.
    assert (X : r_props x = props). { cbn in H2. unfold new_relationship in H2. repeat (match type of H2 with context [match ?b with _ => _ end] => destruct b end; try discriminate); inv H2; reflexivity. }
    unfold rel_val in E. rewrite X in E. inv E. cbn in G. destruct (r_props x) as [y|]; cbn in G; [|discriminate]. inv G. eapply property_dict_shows; eauto.
  Qed.
  Lemma wmapM_shows {A B} (f : A -> logged B) (P : B -> Prop) s l ys y : (forall a b, snd (f a) = Ok b -> P b -> shown (fst (f a)) s) ->
    snd (wmapM f l) = Ok ys -> In y ys -> P y -> shown (fst (wmapM f l)) s.
  Proof.
    intros F. revert ys. induction l as [|a l IH]; intros ys H I Py; cbn [wmapM] in *; [inv H; destruct I|].
    apply wbind_ok in H as (b & H1 & H2 & ->). apply wbind_ok in H2 as (bs & H2 & E & ->). inv E.
    destruct I as [<-|I]; [apply shown_l; eapply F; eauto|apply shown_r, shown_l; eapply IH; eauto].
  Qed.
  Lemma node_shows n x s : snd (make_node_l lt n) = Ok x -> has_string (node_val x) s -> shown (fst (make_node_l lt n)) s.
  Proof.
    unfold make_node_l. intros H S. apply wbind_ok in H as (props & H1 & H2 & ->). apply wbind_ok in H2 as (rels & H2 & H3 & ->).
    assert (X : n_props x = props /\ n_rels x = rels).
    { cbn in H3. unfold new_node in H3. repeat (match type of H3 with context [match ?b with _ => _ end] => destruct b end; try discriminate); inv H3; auto. }
    destruct X as [X1 X2]. destruct S as [(d & ps & k & E & G & I)|(d & rs & r & E & G & I & O)]; unfold node_val in E; rewrite X1, X2 in E; inv E; cbn in G.
    - apply shown_l. destruct (n_props x) as [y|]; cbn in G; [|discriminate]. inv G. eapply property_dict_shows; eauto.
    - apply shown_r, shown_l. destruct (np_rels n) as [|r0 l] eqn:ER; [cbn in H2; inv H2; rewrite <- H0 in G; discriminate|].
      apply wbind_ok in H2 as (ys & H2 & E & ->). apply shown_l. cbn in E. inv E. rewrite <- H0 in G. inv G.
      apply in_map_iff in I as (y & <- & I). eapply (wmapM_shows _ (fun b => own_string (rel_val b) s)); [intros; eapply relationship_shows; eauto|exact H2|exact I|exact O].
  Qed.
  Lemma nodes_show m xs x s : snd (make_nodes_l lt m) = Ok xs -> In x xs -> has_string (node_val x) s -> shown (fst (make_nodes_l lt m)) s.
  Proof.
    unfold make_nodes_l. intros H I S. apply wbind_ok in H as (l & H1 & H & ->). apply wbind_ok in H as (md & H2 & H & ->). apply wbind_ok in H as (r & H3 & H & ->).
    inv H. destruct I as [<-|I]; [apply shown_l; eapply node_shows; eauto|]. apply in_app_iff in I as [I|I].
    - apply shown_r, shown_l. destruct (mp_middle m); [|inv H2; destruct I]. apply wbind_ok in H2 as (y & H2 & E & ->). inv E. destruct I as [<-|[]].
      apply shown_l. eapply node_shows; eauto.
    - apply shown_r, shown_r, shown_l. destruct (mp_right m); [|inv H3; destruct I]. apply wbind_ok in H3 as (y & H3 & E & ->). inv E. destruct I as [<-|[]].
      apply shown_l. eapply node_shows; eauto.
  Qed.
  Lemma nodes_dict_in ns : forall d kv, In kv (fold_left (fun d n => d_set (str_of_Z (n_wn n)) (node_val n) d) ns d) -> In kv d \/ exists n, In n ns /\ snd kv = node_val n.
  Proof.
    induction ns as [|n ns IH]; intros d kv H; cbn [fold_left] in H; [auto|]. destruct (IH _ _ H) as [D|(m & I & E)]; [|right; exists m; split; [right|]; assumption].
    apply d_set_in in D as [->|D]; [right; exists n; split; [left|]; reflexivity|auto].
  Qed.
  Lemma all_nodes_show ms nss k v s : snd (wmapM (make_nodes_l lt) ms) = Ok nss -> In (k, v) (nodes_dict (concat nss)) -> has_string v s ->
    shown (fst (wmapM (make_nodes_l lt) ms)) s.
  Proof.
    intros H I S. unfold nodes_dict in I. apply nodes_dict_in in I as [[]|(n & I & E)]. cbn [snd] in E. subst v. apply in_concat in I as (xs & I1 & I2).
    eapply (wmapM_shows _ (fun xs => In n xs)); [|exact H|exact I1|exact I2]. intros a b Ha Hb. eapply nodes_show; eauto.
  Qed.
End Values.

(** ** What a query logs *)
(** every record satisfies [P], whatever the responses *)
Inductive logs {A} (P : record -> Prop) : lio A -> Prop :=
| logs_ret a : logs P (LRet a)
| logs_throw e : logs P (LThrow e)
| logs_do c k : (forall r, logs P (k r)) -> logs P (LDo c k)
| logs_log r m : P r -> logs P m -> logs P (LLog r m).
Lemma logs_sound {A} P (m : lio A) : logs P m -> forall w l w', lcrash m w l w' -> Forall P l.
Proof.
  induction 1 as [a|e|c k H IH|r m Pr H IH]; intros w l w' C.
  - apply lcrash_ret in C as (-> & _). constructor.
  - apply lcrash_throw in C as (-> & _). constructor.
  - apply lcrash_do in C as [(-> & _)|[(-> & _)|C]]; try constructor. eapply IH. exact C.
  - apply lcrash_llog in C as [(-> & _)|(l' & -> & C)]; constructor; [exact Pr|]. eapply IH. exact C.
Qed.
Lemma logs_mute {A} P (m : io A) : logs P (mute m).
Proof. induction m; cbn [mute]; constructor; auto. Qed.
Lemma logs_note (P : record -> Prop) l t : P (l, t) -> logs P (note l t).
Proof. intros X. constructor; [exact X|constructor]. Qed.
Lemma logs_wlift {A} P (x : logged A) : Forall P (fst x) -> logs P (wlift x).
Proof. unfold wlift. generalize (fst x). intros l H. induction H; cbn [notes]; [apply logs_mute|constructor; assumption]. Qed.
Lemma logs_bind {A B} P (m : lio A) (f : A -> lio B) : logs P m -> (forall a, logs P (f a)) -> logs P (lbind m f).
Proof. intros M F. induction M; cbn [lbind]; [apply F|constructor|constructor; auto|constructor; auto]. Qed.
Lemma logs_catch {A} P (m : lio A) h : logs P m -> (forall e m', h e = Some m' -> logs P m') -> logs P (lcatch m h).
Proof. intros M F. induction M; cbn [lcatch]; [constructor| |constructor; auto|constructor; auto]. destruct (h e) eqn:E; [eapply F; exact E|constructor]. Qed.

Section Told.
  Context {rt : PyRt} (lt : pyval -> pystr).

  Lemma lrun_result {A} (m : lio A) m' w l r w' : same_program (quiet m) m' -> lrun m w = (l, r, w') -> run m' w = (r, w').
  Proof. intros S H. rewrite <- (same_run _ _ S w), lrun_quiet, H. reflexivity. Qed.
  Lemma lrun_has {A} (m : lio A) m' w r w' : same_program (quiet m) m' -> run m' w = (r, w') -> exists l, lrun m w = (l, r, w').
  Proof. intros S H. rewrite <- (same_run _ _ S w), lrun_quiet in H. destruct (lrun m w) as [[l x] v]. cbn in H. inv H. eauto. Qed.
  Lemma lcrash_result {A} (m : lio A) m' w l w' : same_program (quiet m) m' -> lcrash m w l w' -> crash m' w w'.
  Proof. intros S H. eapply same_crash; [exact S|]. eapply lcrash_quiet. exact H. Qed.

  Ltac lg := repeat first [ apply logs_ret | apply logs_throw | apply logs_mute | apply logs_bind; [|intros ?] | apply logs_note ].
  Lemma number_logs p : logs no_count (get_current_wiggle_number_l p).
  Proof. unfold get_current_wiggle_number_l. lg; try nc. destruct a0; lg; nc. Qed.
  Lemma update_logs p z : logs no_count (update_wiggle_number_l p z).
  Proof. unfold update_wiggle_number_l. lg; nc. Qed.
  Lemma load_logs p : logs no_count (load_index_set_l p NODE_LABELS) /\ logs no_count (load_index_set_l p RELATIONSHIP_NAMES).
  Proof.
    unfold load_index_set_l. split; (lg; [nc|]; apply logs_catch; [lg; nc|]; intros e m' E; destruct e; try discriminate E; injection E as <-; apply logs_log; [nc|constructor]).
  Qed.
  Lemma values_no_count l : Forall about_value l -> Forall no_count l.
  Proof. apply Forall_impl. apply about_no_count. Qed.
  Lemma find_logs f g : logs no_count (find_l lt f g).
  Proof.
    unfold find_l. apply logs_bind; [apply logs_wlift, values_no_count, find_values|]. intros fp. apply logs_bind.
    - unfold find_short_circuit_l. destruct (load_logs (indexes_fp g)) as [L1 L2]. apply logs_bind; [exact L1|]. intros. apply logs_bind; [exact L2|]. intros.
      destruct (negb _); [constructor|]. destruct (relationship_name_is_in_index _ _); constructor.
    - intros []; lg.
  Qed.

  (** *** The database *)
  Lemma tally_one n : tally [(INFO, py "writing to db"); (INFO, added_text n)] n.
  Proof. apply tally_other; [nc|]. rewrite <- (Nat.add_0_r n) at 2. apply tally_added; [reflexivity|constructor]. Qed.
  Lemma add_item_crash p items w l w' : lcrash (add_item_to_database_l p items) w l w' ->
    (tally l 0 /\ crash (add_item_to_database p items) w w') \/
    (tally l (List.length items) /\ run (add_item_to_database p items) w = (Ok true, w')).
  Proof.
    intros H. pose proof (lcrash_result _ _ _ _ _ (add_item_same p items) H) as C. unfold add_item_to_database_l in H.
    apply lcrash_bind in H as [H|(db & l1 & w1 & l2 & R1 & H & ->)]; [left; apply lcrash_mute in H as (-> & _); split; [constructor|exact C]|].
    apply lrun_mute_inv in R1 as (-> & R1).
    apply lcrash_bind in H as [H|(u & l1 & w2 & l3 & R2 & H & ->)].
    { left. split; [|exact C]. apply lcrash_note in H as (_ & [-> | ->]); [constructor|]. apply tally_zero. constructor; [nc|constructor]. }
    rewrite lrun_note in R2. injection R2 as <- <- <-.
    assert (Z : tally [(INFO, py "writing to db")] 0) by (apply tally_zero; constructor; [nc|constructor]).
    apply lcrash_bind in H as [H|(db' & l1 & w2 & l2 & R2 & H & ->)]; [left; apply lcrash_mute in H as (-> & _); split; [exact Z|exact C]|].
    apply lrun_mute_inv in R2 as (-> & R2).
    apply lcrash_bind in H as [H|(n & l1 & w3 & l3 & R3 & H & ->)]; [left; apply lcrash_mute in H as (-> & _); split; [exact Z|exact C]|].
    apply lrun_mute_inv in R3 as (-> & R3).
    apply lcrash_bind in H as [H|(u & l1 & w4 & l4 & R4 & H & ->)].
    - apply lcrash_note in H as (-> & [-> | ->]); [left; split; [exact Z|exact C]|]. right. split; [apply tally_one|].
      unfold add_item_to_database. rewrite run_bind, R1.
      rewrite run_bind, R2.
      rewrite run_bind, R3. reflexivity.
    - rewrite lrun_note in R4. injection R4 as <- <- <-. apply lcrash_ret in H as (-> & ->). right. split; [apply tally_one|].
      unfold add_item_to_database. rewrite run_bind, R1.
      rewrite run_bind, R2.
      rewrite run_bind, R3. reflexivity.
  Qed.
  Lemma add_item_run p items w l r w' : lrun (add_item_to_database_l p items) w = (l, r, w') ->
    match r with Ok _ => tally l (List.length items) | Err _ => tally l 0 end.
  Proof.
    unfold add_item_to_database_l. intros H. rewrite lrun_bind, lrun_mute in H. destruct (run (read_json p) w) as [[db|e] w1]; cbn [fst snd] in H; [|inv H; constructor].
    rewrite lrun_bind, lrun_note in H. rewrite lrun_bind, lrun_mute in H.
    assert (Z : tally [(INFO, py "writing to db")] 0) by (apply tally_zero; constructor; [nc|constructor]).
    destruct (run (lift (db_add_all items db)) w1) as [[db'|e] w2]; cbn [fst snd] in H; [|inv H; exact Z].
    rewrite lrun_bind, lrun_mute in H. destruct (run (write_json p 0 db') w2) as [[n|e] w3]; cbn [fst snd] in H; [|inv H; exact Z].
    inv H. apply tally_one.
  Qed.

  (** *** MAKE *)
  Lemma run_log {A} (m : lio A) w l r w' P : logs P m -> lrun m w = (l, r, w') -> Forall P l.
  Proof. intros L H. eapply logs_sound; [exact L|]. eapply lcrash_end. exact H. Qed.
  Lemma rest_logs ns ms g z : logs no_count (let& _ := mute (add_indexes ns ms g) in let& _ := update_wiggle_number_l (wiggle_number_fp g) z in LRet true).
  Proof. apply logs_bind; [apply logs_mute|]. intros _. apply logs_bind; [apply update_logs|]. intros _. constructor. Qed.

  Definition shows_all (log : list record) (items : list (pystr * pyval)) : Prop :=
    forall k v s, In (k, v) items -> has_string v s -> exists r, In r log /\ in_clear s r.
  Lemma shows_more l0 l1 l2 items : shows_all l1 items -> shows_all (l0 ++ l1 ++ l2) items.
  Proof. intros H k v s I S. destruct (H k v s I S) as (r & Ir & C). exists r. split; [apply in_app_iff; right; apply in_app_iff; auto|exact C]. Qed.

  Lemma make_run_l (D : rt_data rt) g d w w' l r log : distinct_files g -> db_file_is (database_fp g) d w -> Forall names_ok (patterns_of l) ->
    lrun (make_l lt l g) w = (log, r, w') ->
    ((exists e, r = Err e) /\ w' = w /\ tally log 0) \/
    (exists z items, acceptable (patterns_of l) z items /\ db_file_is (database_fp g) (d ++ items) w' /\ tally log (List.length items) /\ shows_all log items) \/
    (unreadable g w' /\ r = Err TypeError /\ tally log 0).
  Proof.
    intros DI DF N H. pose proof (lrun_result _ _ _ _ _ _ (make_same lt l g) H) as R.
    unfold make_l in H. rewrite lrun_bind in H.
    destruct (run_get_wn_any (wiggle_number_fp g) w) as (rz & Hz).
    destruct (lrun_has _ _ _ _ _ (get_number_same (wiggle_number_fp g)) Hz) as (l0 & L0). rewrite L0 in H.
    pose proof (run_log _ _ _ _ _ _ (number_logs _) L0) as N0.
    destruct rz as [z|e]; [|inv H; left; split; [eauto|split; [reflexivity|apply tally_zero; exact N0]]].
    rewrite lrun_bind, lrun_mute, run_lift in H. cbn [fst snd] in H.
    destruct (prepare_spec (patterns_of l) z) as [(ms & nss & items & E1 & E2 & RD)|(NA & [(e & E)|(ms & e & E1 & E2)])].
    - unfold process_parsed_make_list in H. fold (patterns_of l) in H. rewrite E1 in H.
      rewrite lrun_bind, lrun_wlift in H. rewrite (wmapM_snd _ _ ms (make_nodes_same lt)), E2 in H.
      set (vals := fst (wmapM (make_nodes_l lt) ms)) in *.
      assert (NV : Forall no_count vals) by (apply values_no_count, wmapM_fst, make_nodes_values).
      cbv zeta in H. rewrite (rd_nodes _ _ _ _ _ RD) in H. rewrite lrun_bind in H.
      assert (SH : shows_all vals items).
      { intros k v s I S. rewrite <- (rd_nodes _ _ _ _ _ RD) in I. eapply (all_nodes_show lt ms nss); [rewrite (wmapM_snd _ _ ms (make_nodes_same lt)); exact E2|exact I|exact S]. }
      assert (A : acceptable (patterns_of l) z items) by (split; apply RD).
      destruct (lrun (add_item_to_database_l (database_fp g) items) w) as [[la ra] wa] eqn:LA.
      pose proof (add_item_run _ _ _ _ _ _ LA) as TA. pose proof (lrun_result _ _ _ _ _ _ (add_item_same (database_fp g) items) LA) as RA.
      destruct ra as [b|e].
      + destruct (lrun (let& _ := mute (add_indexes (concat nss) ms g) in let& _ := update_wiggle_number_l (wiggle_number_fp g) (z + size_all (patterns_of l))%Z in LRet true) wa) as [[lr rr] wr] eqn:LR.
        inv H. pose proof (run_log _ _ _ _ _ _ (rest_logs _ _ _ _) LR) as NR.
        (* the database was written *)
        pose proof R as R0. rewrite (run_make_ready l g w z ms nss items Hz E1 E2 RD) in R0. unfold commit in R0. rewrite run_bind, RA in R0.
        assert (T : tally (l0 ++ [] ++ vals ++ la ++ lr) (List.length items)).
        { change (List.length items) with (0 + (0 + List.length items)). apply tally_app; [apply tally_zero; exact N0|]. cbn [app]. apply tally_app; [apply tally_zero; exact NV|].
          rewrite <- (Nat.add_0_r (List.length items)). apply tally_app; [exact TA|apply tally_zero; exact NR]. }
        assert (DB : db_file_is (database_fp g) (d ++ items) w').
        { pose proof DF as (F & Vd & Sd). destruct DI as (N1 & N2 & N3).
          destruct (existsb (fun k => s_mem k (keys d)) (keys items)) eqn:X.
          { apply existsb_exists in X as (k & Hk & Hk'). apply s_mem_In in Hk'. rewrite (add_item_exists _ _ _ _ k DF Hk Hk') in RA. discriminate. }
          assert (V : dict_ok (d ++ items)).
          { apply dict_ok_join; [exact Vd|eapply (entries_all_ok D); [exact N|apply A]|]. intros k Hk Hk'.
            assert (existsb (fun k => s_mem k (keys d)) (keys items) = true); [|congruence].
            apply existsb_exists. exists k. split; [exact Hk|]. apply s_mem_In. exact Hk'. }
          rewrite (write_new_db _ _ _ _ DF V) in RA. destruct (dict_ser items) eqn:Sr; [|discriminate]. apply pair_inv in RA as [_ <-].
          split; [|split; [exact V|unfold dict_ser in *; rewrite forallb_app, Sd, Sr; reflexivity]].
          assert (O : only (on_files [indexes_fp g; wiggle_number_fp g])
            (let! _ := add_indexes (concat nss) ms g in let! _ := update_wiggle_number (wiggle_number_fp g) (z + size_all (patterns_of l))%Z in Ret true)).
          { apply only_bind; [|intros _; apply only_bind; [apply only_update_wn; cbn; tauto|intros; constructor]].
            unfold add_indexes. apply only_bind; [apply only_add_rels; cbn; tauto|]. intros _.
            apply only_bind; [apply only_add_set; cbn; tauto|]. intros _. apply only_bind; [apply only_add_set; cbn; tauto|]. intros; constructor. }
          pose proof (only_run_frame _ _ (put (database_fp g) (dump_text Indent4 (VDict (d ++ items))) w) O) as [Fr _]. rewrite R0 in Fr. cbn [snd] in Fr.
          unfold has_file, get. rewrite Fr; [apply put_has|]. cbn. intros [E|[E|[]]]; congruence. }
        right. left. exists z, items. split; [exact A|]. split; [exact DB|]. split; [exact T|]. cbn [app]. apply shows_more. exact SH.
      + assert (T : tally (l0 ++ [] ++ vals ++ la) 0).
        { change 0 with (0 + (0 + 0)). apply tally_app; [apply tally_zero; exact N0|]. cbn [app]. apply tally_app; [apply tally_zero; exact NV|exact TA]. }
        inv H. pose proof DF as (F & Vd & Sd).
        destruct (existsb (fun k => s_mem k (keys d)) (keys items)) eqn:X.
        { apply existsb_exists in X as (k & Hk & Hk'). apply s_mem_In in Hk'. rewrite (add_item_exists _ _ _ _ k DF Hk Hk') in RA. apply pair_inv in RA as [_ <-].
          left. split; [eauto|split; [reflexivity|exact T]]. }
        assert (V : dict_ok (d ++ items)).
        { apply dict_ok_join; [exact Vd|eapply (entries_all_ok D); [exact N|apply A]|]. intros k Hk Hk'.
          assert (existsb (fun k => s_mem k (keys d)) (keys items) = true); [|congruence].
          apply existsb_exists. exists k. split; [exact Hk|]. apply s_mem_In. exact Hk'. }
        rewrite (write_new_db _ _ _ _ DF V) in RA. destruct (dict_ser items) eqn:Sr; [discriminate|]. apply pair_inv in RA as [RA <-]. inv RA.
        right. right. split; [|split; [reflexivity|exact T]]. eexists. split; [apply put_has|]. unfold load_json.
        rewrite (dict_cut Indent4 (d ++ items) (dump_text Indent4 (VDict (d ++ items))) [] V); [reflexivity|rewrite app_nil_r; reflexivity|].
        right. unfold dict_ser in *. rewrite forallb_app, Sr. apply andb_false_r.
    - unfold process_parsed_make_list in H. fold (patterns_of l) in H. rewrite E in H. inv H. left. split; [eauto|]. split; [reflexivity|].
      rewrite app_nil_r. apply tally_zero. exact N0.
    - unfold process_parsed_make_list in H. fold (patterns_of l) in H. rewrite E1 in H. rewrite lrun_bind, lrun_wlift in H.
      rewrite (wmapM_snd _ _ ms (make_nodes_same lt)), E2 in H. inv H. left. split; [eauto|]. split; [reflexivity|].
      cbn [app]. change 0 with (0 + 0). apply tally_app; apply tally_zero; [exact N0|]. apply values_no_count, wmapM_fst, make_nodes_values.
  Qed.

  Lemma make_crash_l (D : rt_data rt) g d w w' l log : distinct_files g -> db_file_is (database_fp g) d w -> Forall names_ok (patterns_of l) ->
    lcrash (make_l lt l g) w log w' ->
    (db_file_is (database_fp g) d w' /\ tally log 0) \/
    (exists z items, acceptable (patterns_of l) z items /\ db_file_is (database_fp g) (d ++ items) w' /\
       (tally log (List.length items) \/ tally log 0) /\ shows_all log items) \/
    unreadable g w'.
  Proof.
    intros DI DF N H. pose proof DF as (F & Vd & Sd). pose proof DI as (N1 & N2 & N3). unfold make_l in H.
    apply lcrash_bind in H as [H|(z & l0 & w1 & l1 & R & H & ->)].
    { left. pose proof (logs_sound _ _ (number_logs _) _ _ _ H) as Z. apply (lcrash_result _ _ _ _ _ (get_number_same _)) in H. apply crash_get_wn in H. subst.
      split; [exact DF|apply tally_zero; exact Z]. }
    pose proof (run_log _ _ _ _ _ _ (number_logs _) R) as T0. apply tally_zero in T0.
    apply (lrun_result _ _ _ _ _ _ (get_number_same _)) in R. destruct (run_get_wn_any (wiggle_number_fp g) w) as (r & Hr). rewrite Hr in R. injection R as -> <-.
    apply lcrash_bind in H as [H|([z' ms] & l2 & w1 & l3 & R & H & ->)].
    { left. apply lcrash_mute in H as (-> & H). apply crash_lift in H. subst. rewrite app_nil_r. auto. }
    apply lrun_mute_inv in R as (-> & R). rewrite run_lift in R. unfold process_parsed_make_list in R. fold (patterns_of l) in R. apply pair_inv in R as [R <-].
    apply lcrash_bind in H as [H|(nss & lv & w1 & l4 & R' & H & ->)].
    { left. apply lcrash_wlift in H as (-> & l' & E). split; [exact DF|]. change 0 with (0 + 0). apply tally_app; [exact T0|]. cbn [app].
      assert (V : Forall no_count (fst (wmapM (make_nodes_l lt) ms))) by (apply values_no_count, wmapM_fst, make_nodes_values).
      rewrite E in V. apply Forall_app in V as [V _]. apply tally_zero. exact V. }
    rewrite lrun_wlift in R'. pose proof (wmapM_snd _ _ ms (make_nodes_same lt)) as SV. rewrite SV in R'.
    assert (V : Forall no_count (fst (wmapM (make_nodes_l lt) ms))) by (apply values_no_count, wmapM_fst, make_nodes_values).
    destruct (mapM make_nodes ms) as [nss'|] eqn:E2; [|discriminate].
    assert (X : lv = fst (wmapM (make_nodes_l lt) ms) /\ nss' = nss /\ w1 = w) by (inversion R'; auto). destruct X as (-> & -> & ->). clear R'.
    destruct (prepare_spec (patterns_of l) z) as [(ms0 & nss0 & items & E1 & E2' & RD)|(NA & [(e & E)|(ms0 & e & E1 & E2')])].
    2:{ rewrite E in R. discriminate. }
    2:{ rewrite E1 in R. inversion R; subst. congruence. }
    rewrite E1 in R. inversion R; subst z' ms0; clear R. assert (nss0 = nss) by congruence. subst nss0.
    assert (A : acceptable (patterns_of l) z items) by (split; apply RD).
    set (vals := fst (wmapM (make_nodes_l lt) ms)) in *. apply tally_zero in V.
    assert (SH : shows_all vals items).
    { intros k v s I S. rewrite <- (rd_nodes _ _ _ _ _ RD) in I. eapply (all_nodes_show lt ms nss); [exact SV|exact I|exact S]. }
    cbv zeta in H. rewrite (rd_nodes _ _ _ _ _ RD) in H.
    assert (PRE : forall la n, tally la n -> tally (l0 ++ [] ++ vals ++ la) n).
    { intros la n T. change n with (0 + (0 + n)). apply tally_app; [exact T0|]. cbn [app]. apply tally_app; [exact V|exact T]. }
    assert (SHOW : forall la, shows_all (l0 ++ [] ++ vals ++ la) items) by (intros la; cbn [app]; apply shows_more; exact SH).
    destruct (existsb (fun k => s_mem k (keys d)) (keys items)) eqn:X.
    - apply existsb_exists in X as (k & Hk & Hk'). apply s_mem_In in Hk'.
      pose proof (add_item_exists _ _ _ _ k DF Hk Hk') as RE. left.
      apply lcrash_bind in H as [H|(b & la & w1 & lr & R & H & ->)].
      2:{ apply (lrun_result _ _ _ _ _ _ (add_item_same _ _)) in R. rewrite RE in R. discriminate. }
      apply add_item_crash in H as [(T & C)|(_ & R)]; [|rewrite RE in R; discriminate]. split; [|apply PRE; exact T].
      unfold add_item_to_database in C, RE.
      apply crash_bind in C as [C|(db & w1 & R1 & C)]; [apply crash_read_json in C; subst; exact DF|].
      rewrite run_bind, R1 in RE. rewrite run_read_json in R1. apply pair_inv in R1 as [_ <-].
      apply crash_bind in C as [C|(db' & w1 & R1 & C)]; [apply crash_lift in C; subst; exact DF|].
      rewrite run_bind, R1 in RE. rewrite run_lift in R1. apply pair_inv in R1 as [R1 <-].
      rewrite run_bind in RE. rewrite (run_write_json _ 0 _ _ _ F) in RE.
      destruct (snd (dump_top Indent4 db')); cbn [run] in RE; discriminate.
    - assert (VD : dict_ok (d ++ items)).
      { apply dict_ok_join; [exact Vd|eapply (entries_all_ok D); [exact N|apply A]|]. intros k Hk Hk'.
        assert (existsb (fun k => s_mem k (keys d)) (keys items) = true); [|congruence].
        apply existsb_exists. exists k. split; [exact Hk|]. apply s_mem_In. exact Hk'. }
      assert (J : dict_ser items = true -> dict_ser (d ++ items) = true).
      { intros Sr. unfold dict_ser. rewrite forallb_app. fold (dict_ser d) (dict_ser items). rewrite Sd, Sr. reflexivity. }
      apply lcrash_bind in H as [H|(b & la & w1 & lr & R & H & ->)].
      + apply add_item_crash in H as [(T & C)|(T & R)].
        * apply (crash_add_item _ _ _ _ _ DF VD) in C as (u & -> & O).
          destruct (torn_db d items u VD Sd O) as [->|[(-> & Sr)|TN]].
          -- left. split; [split; [apply put_has|auto]|apply PRE; exact T].
          -- right. left. exists z, items. split; [exact A|]. split; [split; [apply put_has|auto]|]. split; [right; apply PRE; exact T|apply SHOW].
          -- right. right. exists u. split; [apply put_has|]. unfold load_json. rewrite TN. reflexivity.
        * rewrite (write_new_db _ _ _ _ DF VD) in R. destruct (dict_ser items) eqn:Sr; [|discriminate]. apply pair_inv in R as [_ <-].
          right. left. exists z, items. split; [exact A|]. split; [split; [apply put_has|auto]|]. split; [left; apply PRE; exact T|apply SHOW].
      + pose proof (add_item_run _ _ _ _ _ _ R) as T. apply (lrun_result _ _ _ _ _ _ (add_item_same _ _)) in R.
        rewrite (write_new_db _ _ _ _ DF VD) in R. destruct (dict_ser items) eqn:Sr; [|discriminate]. apply pair_inv in R as [_ <-].
        pose proof (logs_sound _ _ (rest_logs _ _ _ _) _ _ _ H) as TR. apply tally_zero in TR.
        right. left. exists z, items. split; [exact A|]. split; [|split; [left; apply PRE; rewrite <- (Nat.add_0_r (List.length items)); apply tally_app; [exact T|exact TR]|apply SHOW]].
        split; [|auto].
        assert (O : only (on_files [indexes_fp g; wiggle_number_fp g])
          (let! _ := add_indexes (concat nss) ms g in let! _ := update_wiggle_number (wiggle_number_fp g) (z + size_all (patterns_of l))%Z in Ret true)).
        { apply only_bind; [|intros _; apply only_bind; [apply only_update_wn; cbn; tauto|intros; constructor]].
          unfold add_indexes. apply only_bind; [apply only_add_rels; cbn; tauto|]. intros _.
          apply only_bind; [apply only_add_set; cbn; tauto|]. intros _. apply only_bind; [apply only_add_set; cbn; tauto|]. intros; constructor. }
        assert (C : crash (let! _ := add_indexes (concat nss) ms g in let! _ := update_wiggle_number (wiggle_number_fp g) (z + size_all (patterns_of l))%Z in Ret true)
          (put (database_fp g) (dump_text Indent4 (VDict (d ++ items))) w) w').
        { eapply lcrash_result; [|exact H]. apply quiet_bind; [apply quiet_mute|]. intros _. apply quiet_bind; [apply update_number_same|]. intros _. apply same_refl. }
        destruct (only_crash_frame _ _ _ _ O C) as [Fr _]. unfold has_file, get. rewrite Fr; [apply put_has|].
        cbn. intros [E|[E|[]]]; congruence.
  Qed.

  (** *** Queries *)
  Lemma after_logs f rp g : logs no_count (let& found := find_l lt f g in let& _ := match rp with Some r => mute (report r found g) | None => LRet true end in LRet true).
  Proof. apply logs_bind; [apply find_logs|]. intros. apply logs_bind; [destruct rp; [apply logs_mute|constructor]|]. intros. constructor. Qed.
  Lemma after_same f rp g : same_program (quiet (let& found := find_l lt f g in let& _ := match rp with Some r => mute (report r found g) | None => LRet true end in LRet true))
    (let! found := find f g in let! _ := match rp with Some r => report r found g | None => Ret true end in Ret true).
  Proof.
    apply quiet_bind; [apply find_same|]. intros found. apply quiet_bind; [destruct rp; [apply quiet_mute|apply same_refl]|]. intros _. apply same_refl.
  Qed.
  Lemma after_files f rp g v v' : crash (let! found := find f g in let! _ := match rp with Some r => report r found g | None => Ret true end in Ret true) v v' -> w_fs v' = w_fs v.
  Proof.
    intros C. apply crash_bind in C as [C|(fo & v1 & R & C)]; [eapply find_crash; exact C|].
    pose proof (find_files f g v) as FF. rewrite R in FF. cbn [snd] in FF. rewrite <- FF.
    destruct rp; cbn [report io_bind] in C; apply crash_ret in C; congruence.
  Qed.
  (** a query is a MAKE, if it has one, and something after it that counts nothing and changes no file *)
  Lemma query_crash_l q g w log w' : lcrash (query_l lt q g) w log w' ->
    (w_fs w' = w_fs w /\ Forall no_count log) \/
    exists l, parse_make q = Ok (Some l) /\ (lcrash (make_l lt l g) w log w' \/
      exists b w1 log1 log2, lrun (make_l lt l g) w = (log1, Ok b, w1) /\ log = log1 ++ log2 /\ Forall no_count log2 /\ w_fs w' = w_fs w1).
  Proof.
    unfold query_l. intros H. apply lcrash_bind in H as [H|(pq & l1 & w1 & l2 & R & H & ->)].
    { left. apply lcrash_mute in H as (-> & H). apply crash_lift in H. subst. split; [reflexivity|constructor]. }
    apply lrun_mute_inv in R as (-> & R). rewrite run_lift in R. apply pair_inv in R as [P <-]. cbn [app].
    assert (H' : lcrash (execute_query_l lt pq g) w l2 w').
    { apply lcrash_bind in H as [H|(b & l3 & w1 & l4 & R & H & ->)]; [exact H|]. apply lcrash_ret in H as (-> & ->). rewrite app_nil_r. eapply lcrash_end. exact R. }
    clear H. unfold parse_query_string in P. destruct (parse_make q) as [mk|] eqn:EM; cbn [bind] in P; [|discriminate].
    destruct (parse_find q) as [[f|]|]; cbn [bind] in P; try discriminate.
    destruct (parse_report _ _) as [rp|]; cbn [bind] in P; [|discriminate]. injection P as <-.
    unfold execute_query_l in H'. cbn [q_make q_find q_report] in H'.
    apply lcrash_bind in H' as [C|(b & l3 & w1 & l4 & R & C & ->)].
    - destruct mk as [[|m l]|]; [left; apply lcrash_ret in C as (-> & ->); split; [reflexivity|constructor]| |left; apply lcrash_ret in C as (-> & ->); split; [reflexivity|constructor]].
      right. exists (m :: l). auto.
    - pose proof (logs_sound _ _ (after_logs f rp g) _ _ _ C) as NC. pose proof (after_files _ _ _ _ _ (lcrash_result _ _ _ _ _ (after_same f rp g) C)) as FS.
      destruct mk as [[|m l]|]; [left; cbn in R; inversion R; subst; auto| |left; cbn in R; inversion R; subst; auto].
      right. exists (m :: l). split; [reflexivity|]. right. exists b, w1, l3, l4. auto.
  Qed.
  Lemma query_run_l q g w log r w' : lrun (query_l lt q g) w = (log, r, w') ->
    (w_fs w' = w_fs w /\ Forall no_count log /\ forall l, parse_make q = Ok (Some l) -> l = [] \/ forall x, r <> Ok x) \/
    exists l, parse_make q = Ok (Some l) /\
      exists r1 w1 log1 log2, lrun (make_l lt l g) w = (log1, r1, w1) /\ log = log1 ++ log2 /\ Forall no_count log2 /\ w_fs w' = w_fs w1 /\ (forall e, r1 = Err e -> r = Err e).
  Proof.
    unfold query_l. rewrite lrun_bind, lrun_mute, run_lift. cbn [fst snd]. intros H.
    destruct (parse_query_string q) as [pq|e] eqn:P; [|inversion H; subst; left; split; [reflexivity|split; [constructor|intros; right; discriminate]]].
    unfold parse_query_string in P. destruct (parse_make q) as [mk|] eqn:EM; cbn [bind] in P; [|discriminate].
    destruct (parse_find q) as [[f|]|]; cbn [bind] in P; try discriminate.
    destruct (parse_report _ _) as [rp|]; cbn [bind] in P; [|discriminate]. injection P as <-.
    rewrite lrun_bind in H. unfold execute_query_l in H. cbn [q_make q_find q_report] in H. rewrite lrun_bind in H.
    assert (T : forall v ll rr v', lrun (let& found := find_l lt f g in let& _ := match rp with Some r => mute (report r found g) | None => LRet true end in LRet true) v = (ll, rr, v') ->
       Forall no_count ll /\ w_fs v' = w_fs v).
    { intros v ll rr v' R. split; [eapply run_log; [apply after_logs|exact R]|]. eapply after_files. eapply lcrash_result; [apply after_same|]. eapply lcrash_end. exact R. }
    destruct mk as [[|m l]|].
    - cbn [lrun] in H. destruct (lrun _ w) as [[ll rr] v'] eqn:R. destruct (T _ _ _ _ R) as [T1 T2].
      left. destruct rr; cbn [lrun app] in H; inversion H; subst; (split; [exact T2|split; [rewrite ?app_nil_r; exact T1|intros l E; left; congruence]]).
    - right. exists (m :: l). split; [reflexivity|]. destruct (lrun (make_l lt (m :: l) g) w) as [[l1 [b|e]] w1] eqn:M.
      + destruct (lrun _ w1) as [[ll rr] v'] eqn:R. destruct (T _ _ _ _ R) as [T1 T2].
        eexists _, w1, l1, ll. split; [reflexivity|]. destruct rr; cbn [lrun app] in H; inversion H; subst; rewrite ?app_nil_r;
        (split; [reflexivity|split; [exact T1|split; [exact T2|discriminate]]]).
      + injection H as <- <- <-. exists (Err e), w1, l1, []. split; [reflexivity|]. split; [rewrite app_nil_r; reflexivity|]. split; [constructor|]. split; [reflexivity|]. congruence.
    - cbn [lrun] in H. destruct (lrun _ w) as [[ll rr] v'] eqn:R. destruct (T _ _ _ _ R) as [T1 T2].
      left. destruct rr; cbn [lrun app] in H; inversion H; subst; (split; [exact T2|split; [rewrite ?app_nil_r; exact T1|discriminate]]).
  Qed.

  Lemma shows_nil log : shows_all log [].
  Proof. intros k v s []. Qed.
  Lemma shows_app l l' items : shows_all l items -> shows_all (l ++ l') items.
  Proof. intros H. apply (shows_more [] l l' items H). Qed.
  Lemma sent_told (D : rt_data rt) g d x w w1 : distinct_files g -> db_file_is (database_fp g) d w -> sent_l lt g x w w1 ->
    (exists items, told x items /\ db_file_is (database_fp g) (d ++ items) w1) \/ unreadable g w1.
  Proof.
    intros DI DF H. destruct x as [q o log]. unfold sent_l in H. cbn [h_query h_fate h_log] in H. unfold told. cbn [h_query h_fate h_log].
    assert (SAME : w_fs w1 = w_fs w -> tally log 0 -> left_behind (q, o) [] ->
      (exists items, (left_behind (q, o) items /\ (tally log (List.length items) \/ o = Cut /\ tally log 0) /\ shows_all log items) /\ db_file_is (database_fp g) (d ++ items) w1) \/ unreadable g w1).
    { intros E T LB. left. exists []. rewrite app_nil_r. split; [split; [exact LB|split; [left; exact T|apply shows_nil]]|eapply fs_db; eassumption]. }
    assert (RUN : forall r, lrun (query_l lt q g) w = (log, r, w1) -> (forall x, r = Ok x -> o = Answered) -> (forall e, r = Err e -> o = Failed e) ->
      (exists items, (left_behind (q, o) items /\ (tally log (List.length items) \/ o = Cut /\ tally log 0) /\ shows_all log items) /\ db_file_is (database_fp g) (d ++ items) w1) \/ unreadable g w1).
    { intros r R O1 O2. destruct (query_run_l q g w log r w1 R) as [(E & NC & NA)|(l & P & r1 & w2 & log1 & log2 & M & -> & NC & E & X)].
      - apply (SAME E); [apply tally_zero; exact NC|]. unfold left_behind. cbn [fst snd]. destruct (parse_make q) as [[l|]|]; try reflexivity.
        destruct (NA l eq_refl) as [->|NA']; [left; exists 0%Z; split; [constructor|reflexivity]|right]. split; [reflexivity|].
        destruct r as [x|e]; [destruct (NA' x eq_refl)|]. rewrite (O2 e eq_refl). discriminate.
      - apply tally_zero in NC. pose proof (parsed_names_ok D q l P) as N.
        destruct (make_run_l D g d w w2 l r1 log1 DI DF N M) as [((e & ->) & -> & T)|[(z & items & A & DB & T & S)|(U & -> & T)]].
        + apply (SAME E); [exact (tally_app _ _ _ _ T NC)|]. unfold left_behind. cbn [fst snd]. rewrite P. right. split; [reflexivity|]. rewrite (O2 e (X e eq_refl)). discriminate.
        + left. exists items. split; [|eapply fs_db; eassumption]. split; [unfold left_behind; cbn [fst]; rewrite P; left; eauto|].
          split; [left; rewrite <- (Nat.add_0_r (List.length items)); apply tally_app; assumption|apply shows_app; exact S].
        + right. eapply fs_unreadable; eassumption. }
    destruct o as [|e|].
    - destruct H as (b & H). eapply RUN; [exact H| |]; intros; [reflexivity|discriminate].
    - eapply RUN; [exact H| |]; intros; [discriminate|congruence].
    - destruct (query_crash_l q g w log w1 H) as [(E & NC)|(l & P & C)].
      + apply (SAME E); [apply tally_zero; exact NC|]. unfold left_behind. cbn [fst snd]. destruct (parse_make q) as [[l|]|]; try reflexivity. right. split; [reflexivity|discriminate].
      + pose proof (parsed_names_ok D q l P) as N. destruct C as [C|(b & w2 & log1 & log2 & R & -> & NC & E)].
        * destruct (make_crash_l D g d w w1 l log DI DF N C) as [(DB & T)|[(z & items & A & DB & T & S)|U]].
          -- left. exists []. rewrite app_nil_r. split; [|exact DB]. split; [unfold left_behind; cbn [fst snd]; rewrite P; right; split; [reflexivity|discriminate]|].
             split; [left; exact T|apply shows_nil].
          -- left. exists items. split; [|exact DB]. split; [unfold left_behind; cbn [fst]; rewrite P; left; eauto|]. split; [tauto|exact S].
          -- right. exact U.
        * apply tally_zero in NC. destruct (make_run_l D g d w w2 l _ log1 DI DF N R) as [((e & X) & _)|[(z & items & A & DB & T & S)|(_ & X & _)]]; try discriminate.
          left. exists items. split; [|eapply fs_db; eassumption]. split; [unfold left_behind; cbn [fst]; rewrite P; left; eauto|].
          split; [left; rewrite <- (Nat.add_0_r (List.length items)); apply tally_app; assumption|apply shows_app; exact S].
  Qed.

  Lemma sent_quiet g x w w1 : sent_l lt g x w w1 -> sent g (h_query x) (h_fate x) w w1.
  Proof.
    unfold sent_l, sent. destruct (h_fate x) as [|e|].
    - intros (b & H). exists b. eapply lrun_result; [apply query_same|exact H].
    - intros H. eapply lrun_result; [apply query_same|exact H].
    - intros H. eapply lcrash_result; [apply query_same|exact H].
  Qed.
  Lemma history_quiet g h w w' : history_l lt g h w w' -> history g (map (fun x => (h_query x, h_fate x)) h) w w'.
  Proof. induction 1; cbn [map]; [constructor|]. eapply one_query; [apply sent_quiet; eassumption|eassumption|assumption]. Qed.

  Theorem log_tells (D : rt_data rt) g h w w' : history_l lt g h w w' -> forall d, distinct_files g -> db_file (database_fp g) d w ->
    (exists parts, Forall2 told h parts /\ db_file (database_fp g) (d ++ concat parts) w') \/ unreadable g w'.
  Proof.
    induction 1 as [w|x h w w1 w2 w3 S E H IH]; intros d DI DF.
    - left. exists []. cbn [concat]. rewrite app_nil_r. auto.
    - destruct (sent_told D g d x w w1 DI DF S) as [(items & T & DF1)|U].
      + destruct (IH (d ++ items) DI (db_between _ _ _ _ E DF1)) as [(parts & F & DF3)|U].
        * left. exists (items :: parts). cbn [concat]. rewrite app_assoc. auto.
        * right. exact U.
      + right. pose proof (unreadable_between _ _ _ E U) as U2. destruct (unreadable_for_ever g _ w2 w3 (history_quiet _ _ _ _ H) U2) as [E3 _].
        exact (unreadable_between _ _ _ E3 U2).
  Qed.
  (** all together *)
  Theorem log_counts (D : rt_data rt) g h w w' d d' : history_l lt g h w w' -> distinct_files g -> db_file (database_fp g) d w -> db_file (database_fp g) d' w' ->
    exists n, tally (concat (map h_log h)) n /\ List.length d + n <= List.length d' /\
      (Forall (fun x => h_fate x <> Cut) h -> List.length d' = List.length d + n).
  Proof.
    intros H DI DF DF'. destruct (log_tells D g h w w' H d DI DF) as [(parts & F & DB)|(t & Ft & L)].
    - assert (E : d' = d ++ concat parts).
      { pose proof (db_file_parse _ _ _ DF') as P1. pose proof (db_file_parse _ _ _ DB) as P2. rewrite P1 in P2. injection P2. auto. }
      subst d'. clear - F. enough (exists n, tally (concat (map h_log h)) n /\ n <= List.length (concat parts) /\ (Forall (fun x => h_fate x <> Cut) h -> List.length (concat parts) = n)) as (n & T & L & X).
      { exists n. split; [exact T|]. rewrite app_length. split; [lia|]. intros C. rewrite (X C). reflexivity. }
      induction F as [|x p h parts (_ & T & _) F (n & T' & L & X)]; cbn [map concat].
      + exists 0. split; [constructor|]. cbn. auto.
      + destruct T as [T|(C & T)].
        * exists (List.length p + n). split; [apply tally_app; assumption|]. rewrite app_length. split; [lia|]. intros Y. inversion Y; subst. rewrite (X ltac:(assumption)). reflexivity.
        * exists n. split; [exact (tally_app _ _ _ _ T T')|]. rewrite app_length. split; [lia|]. intros Y. inversion Y; subst. contradiction.
    - exfalso. pose proof (db_file_parse _ _ _ DF') as P. rewrite (parse_res_bad _ _ _ _ Ft L) in P. discriminate.
  Qed.
End Told.
