(** C66 what loads from binary bytes is what they list. *)
From Coq Require Import NArith ZArith Bool List Lia String.
From stdpp Require Import base list gmap.
From Verif.Model Require Import Types Mesh Attrs Node EdgeContainer SLayer DLayer Graph Binary Versioning AttrCodec Registry GraphCodec.
From Verif.Spec Require Import BinarySpec AttrSpec RegistrySpec ProgramSpec AbstractGraph GraphHistory GraphObs GraphFileSpec MessageSpec.
From Verif.Proof Require Import BinaryP GraphSim GraphRep GraphObsP CloneP MessageP MessageP2.
From Verif.Properties Require Import P12_Files P13_Registry P14_GraphFiles ExGraph.
Local Open Scope N_scope.

(** Whatever is loaded, from any bytes and into any graph, was listed by these bytes. *)
Theorem C66_only_what_is_listed : forall env p g buf pos g' n,
  (update_from_buffer env p g buf pos = Val g' n -> exists m, message env p buf pos = Val m n) /\
  (read_graph env p buf pos = Val g' n -> exists m, message env p buf pos = Val m n /\ mg_ids m <> []).
Proof.
  intros env p g buf pos g' n. split; intros H.
  - apply bind_val in H as (ids & q & H1 & H). apply (update_applied env p ids) in H as (m & H2 & _ & _). exists m. apply bind_val. eauto.
  - apply bind_val in H as (ids & q & H1 & H). apply bind_val in H as (g0 & q' & H2 & H). apply lift_val in H2 as [H2 <-].
    apply (update_applied env p ids) in H as (m & H3 & Hi & _). exists m. split; [apply bind_val; eauto|]. rewrite Hi. intros ->. discriminate.
Qed.
Print Assumptions C66_only_what_is_listed.

(** the ids in a message are 64-bit numbers *)
Lemma word_bound nb : forall buf pos v n, Forall is_byte buf -> take_word nb buf pos = Val v n -> v < 256 ^ N.of_nat nb.
Proof.
  induction nb as [|k IH]; intros buf pos v n Hb H.
  - injection H as <- _. reflexivity.
  - cbn [take_word] in H. apply bind_val in H as (b & p1 & H1 & H). apply bind_val in H as (u & p2 & _ & H). apply bind_val in H as (r & p3 & H3 & H). apply ret_val in H as [<- _].
    apply IH in H3; [|exact Hb]. unfold byte_at in H1. destruct (buf !! N.to_nat pos) as [b'|] eqn:E; [|discriminate]. injection H1 as <- _.
    assert (b' < 256). { rewrite List.Forall_forall in Hb. apply Hb. apply elem_of_list_In. eapply elem_of_list_lookup_2, E. }
    replace (N.of_nat (S k)) with (N.succ (N.of_nat k)) by lia. rewrite N.pow_succ_r'. nia.
Qed.
Lemma u64_bound buf pos v n : Forall is_byte buf -> cd_read c_u64 0 buf pos = Val v n -> v < 2 ^ 64.
Proof.
  intros Hb H. cbn [cd_read c_u64 codec_uint] in H. apply bind_val in H as (? & p1 & _ & H). apply bind_val in H as (? & p2 & _ & H). apply word_bound in H; [exact H|exact Hb].
Qed.
Lemma records_all {R} (one : Reader R) (P : R -> Prop) buf : (forall pos r n, one buf pos = Val r n -> P r) ->
  forall pos rs n, records one buf pos = Val rs n -> Forall P rs.
Proof.
  intros H1 pos rs n H. unfold records, read_dynamic_array in H. apply bind_val in H as (? & p1 & _ & H).
  assert (L : forall fuel l pos rs n, Forall P l -> read_loop (fun l => let* r := one in ret (l ++ [r])) fuel l buf pos = Val rs n -> Forall P rs).
  { clear -H1. induction fuel as [|fuel IH]; intros l pos rs n Hl H; [discriminate|]. cbn [read_loop] in H. apply bind_val in H as (e & p & _ & H). destruct e.
    - apply ret_val in H as [<- _]. exact Hl.
    - apply bind_val in H as (l1 & p1 & H & H2). apply bind_val in H as (r & p2 & H & Hr). apply ret_val in Hr as [<- _]. eapply IH; [|exact H2].
      apply List.Forall_app. split; [exact Hl|]. constructor; [eapply H1, H|constructor]. }
  eapply L; [|exact H]. constructor.
Qed.
Lemma ids_bound env p buf pos m n : Forall is_byte buf -> message env p buf pos = Val m n -> forall r, r ∈ mg_nodes m -> nr_id r < 2 ^ 64.
Proof.
  intros Hb H. apply bind_val in H as (ids & p0 & _ & H). unfold body in H. apply bind_val in H as (? & p1 & _ & H). apply bind_val in H as (nf & p2 & _ & H). apply bind_val in H as (ef & p3 & _ & H).
  apply bind_val in H as (ns1 & p4 & H1 & H). apply bind_val in H as (ns2 & p5 & H2 & H). apply bind_val in H as (es & p6 & _ & H). apply bind_val in H as (has & p7 & _ & H).
  assert (Hone : forall pos r n, node_record env nf buf pos = Val r n -> nr_id r < 2 ^ 64).
  { clear -Hb. intros pos r n H. apply bind_val in H as (? & p1 & _ & H). apply bind_val in H as (l & p2 & _ & H). apply bind_val in H as (i & p3 & Hi & H). apply bind_val in H as (t & p4 & _ & H).
    apply bind_val in H as (a & p5 & _ & H). apply ret_val in H as [<- _]. eapply u64_bound; eassumption. }
  apply (records_all _ _ _ Hone) in H1, H2. assert (Hm : mg_nodes m = ns1 ++ ns2) by (destruct has; [apply bind_val in H as (? & ? & _ & H)|]; apply ret_val in H as [<- _]; reflexivity).
  intros r Hr. rewrite Hm in Hr. apply elem_of_app in Hr. rewrite List.Forall_forall in H1, H2. destruct Hr as [Hr|Hr]; [apply H1|apply H2]; apply elem_of_list_In, Hr.
Qed.

(** The graph a message is applied to: over other layers, the receiver is reset first. *)
Definition receiver (g : Graph) (m : Message) : Graph := if bool_decide (g_layer_ids g = mg_ids m) then g else g_reset g (mg_ids m).

(** Updating a graph with bytes that list a message: it fails only at edges of unknown classes;
    otherwise the graph has exactly the nodes and edges of the message, a known node stays where
    it is, and what is listed more than once has the attributes listed last. *)
Theorem C66_update : forall env p g buf pos m n, Forall is_byte buf -> message env p buf pos = Val m n ->
  reachable g -> mg_ids m <> [] -> UNKNOWN_LAYER ∉ mg_ids m ->
  times_ok (receiver g m) (mg_ids m) (mg_nodes m) -> gone_ok (receiver g m) (mg_nodes m) ->
  match update_from_buffer env p g buf pos with
  | Val g' n' => n' = n /\ reachable g' /\ g_layer_ids g' = mg_ids m /\ nodes_after (receiver g m) (mg_ids m) (mg_nodes m) g' /\ edges_after (mg_edges m) g' /\
      g_mesh g' = match mg_mesh m with Some mesh => Some mesh | None => g_mesh (receiver g m) end
  | Fail _ => exists r, r ∈ mg_edges m /\ er_attrs r = None
  end.
Proof.
  intros env p g buf pos m n Hb Hm Hr Hne Hu Ht Hg. pose proof (ids_bound _ _ _ _ _ _ Hb Hm) as H64.
  assert (Hrr : reachable (receiver g m)) by (unfold receiver; case_bool_decide; [exact Hr|apply reach_reset; assumption]).
  assert (Hi : g_layer_ids (receiver g m) = mg_ids m) by (unfold receiver; case_bool_decide; [assumption|reflexivity]).
  rewrite <- Hi in Ht. pose proof (applied_ok m (receiver g m) Hrr Ht Hg H64) as HA. rewrite Hi in HA.
  pose proof Hm as Hm'. apply bind_val in Hm as (ids & q & H1 & H2).
  assert (Hids : mg_ids m = ids).
  { clear -H2. unfold body in H2. repeat (apply bind_val in H2 as (? & ? & _ & H2)). match type of H2 with (if ?b then _ else _) _ _ = _ => destruct b end.
    - apply bind_val in H2 as (? & ? & _ & H). apply ret_val in H as [<- _]. reflexivity.
    - apply ret_val in H2 as [<- _]. reflexivity. }
  destruct (update_from_buffer env p g buf pos) as [g' n'|f] eqn:E.
  - apply bind_val in E as (ids' & q' & E1 & E). rewrite H1 in E1. injection E1 as <- <-.
    apply (update_applied env p ids) in E as (m2 & E2 & _ & E3). rewrite H2 in E2. injection E2 as <- <-.
    assert (E3' : applied m (receiver g m) = Ok g') by (unfold receiver; rewrite Hids; exact E3). rewrite E3' in HA. destruct HA as (A1 & A2 & A3 & A4 & _ & A6).
    split; [reflexivity|]. auto 10.
  - destruct (applied m (receiver g m)) as [g'| |] eqn:EA; [|contradiction|exact HA]. exfalso.
    assert (K : update_from_buffer env p g buf pos = Val g' n).
    { apply bind_val. exists ids, q. split; [exact H1|]. apply (update_applied env p ids). exists m. split; [exact H2|]. split; [exact Hids|]. unfold receiver in EA. rewrite Hids in EA. exact EA. }
    congruence.
Qed.
Print Assumptions C66_update.

(** Loading a new graph: the same, and each edge has the direction it is listed with first. *)
Theorem C66_load : forall env p buf pos m n, Forall is_byte buf -> message env p buf pos = Val m n ->
  mg_ids m <> [] -> UNKNOWN_LAYER ∉ mg_ids m -> listed_times (mg_ids m) (mg_nodes m) ->
  match read_graph env p buf pos with
  | Val g' n' => n' = n /\ reachable g' /\ g_layer_ids g' = mg_ids m /\
      (forall x, node_data g' x = node_result None (about (mg_ids m) x (mg_nodes m))) /\
      edges_after (mg_edges m) g' /\ directions (mg_edges m) g' /\ g_mesh g' = mg_mesh m
  | Fail _ => exists r, r ∈ mg_edges m /\ er_attrs r = None
  end.
Proof.
  intros env p buf pos m n Hb Hm Hne Hu Ht. pose proof (ids_bound _ _ _ _ _ _ Hb Hm) as H64.
  assert (Hn : exists g, g_new (mg_ids m) = Ok g) by (unfold g_new; destruct (mg_ids m); [contradiction|eauto]).
  destruct Hn as [g Hg]. assert (Hr : reachable g) by (eapply reach_new; eassumption). pose proof (new_RepL _ _ Hg Hu) as [HR _]. destruct (init_empty _ _ HR) as [E1 E2].
  assert (Hi : g_layer_ids g = mg_ids m) by (unfold g_new in Hg; destruct (mg_ids m); [contradiction|]; injection Hg as <-; reflexivity).
  assert (Hmesh : g_mesh g = None) by (unfold g_new in Hg; destruct (mg_ids m); [contradiction|]; injection Hg as <-; reflexivity).
  assert (HA : match applied m g with
    | Throw => False
    | UB => exists r, r ∈ mg_edges m /\ er_attrs r = None
    | Ok g' => reachable g' /\ g_layer_ids g' = mg_ids m /\ nodes_after g (mg_ids m) (mg_nodes m) g' /\ edges_after (mg_edges m) g' /\
        ((forall x, g_has_node g x = false) -> directions (mg_edges m) g') /\ g_mesh g' = match mg_mesh m with Some mesh => Some mesh | None => g_mesh g end end).
  { rewrite <- Hi. apply applied_ok; [exact Hr| | |exact H64].
    - rewrite Hi. split; [exact Ht|]. intros r t y a _ _ _ H. rewrite E1 in H. discriminate.
    - intros x H. rewrite E2 in H. discriminate. }
  pose proof Hm as Hm'. apply bind_val in Hm as (ids & q & H1 & H2).
  assert (Hids : mg_ids m = ids).
  { clear -H2. unfold body in H2. repeat (apply bind_val in H2 as (? & ? & _ & H2)). match type of H2 with (if ?b then _ else _) _ _ = _ => destruct b end.
    - apply bind_val in H2 as (? & ? & _ & H). apply ret_val in H as [<- _]. reflexivity.
    - apply ret_val in H2 as [<- _]. reflexivity. }
  destruct (read_graph env p buf pos) as [g' n'|f] eqn:E.
  - apply bind_val in E as (ids' & q' & F1 & E). rewrite H1 in F1. injection F1 as <- <-. apply bind_val in E as (g0 & q0 & F2 & E). apply lift_val in F2 as [F2 <-].
    rewrite <- Hids, Hg in F2. injection F2 as <-.
    apply (update_applied env p ids) in E as (m2 & F3 & _ & F4). rewrite H2 in F3. injection F3 as <- <-. rewrite F4 in HA. destruct HA as (A1 & A2 & A3 & A4 & A5 & A6).
    split; [reflexivity|]. split; [exact A1|]. split; [exact A2|]. split; [|split; [exact A4|split; [exact (A5 E2)|rewrite A6, Hmesh; destruct (mg_mesh m); reflexivity]]].
    intros x. destruct (A3 x) as [B1 B2]. rewrite E1 in B1. destruct (decide (x ∈ map nr_id (mg_nodes m))) as [Hx|Hx]; [exact (B1 Hx)|]. rewrite (B2 Hx).
    destruct (about (mg_ids m) x (mg_nodes m)) as [|[[k t] a] l] eqn:El; [reflexivity|]. exfalso. apply Hx.
    destruct (about_in (mg_ids m) x (mg_nodes m) k t a) as (r & Hr' & <- & _); [rewrite El; left|]. apply elem_of_list_In, in_map, elem_of_list_In, Hr'.
  - destruct (applied m g) as [g'| |] eqn:EA; [|contradiction|exact HA]. exfalso.
    assert (K : read_graph env p buf pos = Val g' n).
    { apply bind_val. exists ids, q. split; [exact H1|]. apply bind_val. exists g, q. split; [rewrite <- Hids, Hg; reflexivity|].
      apply (update_applied env p ids). exists m. split; [exact H2|]. split; [exact Hids|exact EA]. }
    congruence.
Qed.
Print Assumptions C66_load.

(** Without layers nothing loads. *)
Theorem C66_no_layers : forall env p buf pos m n, message env p buf pos = Val m n -> mg_ids m = [] -> exists f, read_graph env p buf pos = Fail f.
Proof.
  intros env p buf pos m n Hm Hi. destruct (read_graph env p buf pos) as [g' n'|f] eqn:E; [|eauto]. exfalso.
  apply (proj2 (C66_only_what_is_listed env p g' buf pos g' n')) in E as (m' & E & Hne). congruence.
Qed.
Print Assumptions C66_no_layers.
(** A file: the header, then the bytes of a graph. *)
Theorem C66_file : forall fsub p file g' n, load_binary fsub p file = Val g' n ->
  exists h offset m, load_prologue file = Ok (h, offset) /\ message (mkEnv (h_version h) fsub) p (drop (N.to_nat offset) file) 0 = Val m n /\
    (Forall is_byte file -> UNKNOWN_LAYER ∉ mg_ids m -> listed_times (mg_ids m) (mg_nodes m) ->
     reachable g' /\ g_layer_ids g' = mg_ids m /\ (forall x, node_data g' x = node_result None (about (mg_ids m) x (mg_nodes m))) /\
     edges_after (mg_edges m) g' /\ directions (mg_edges m) g' /\ g_mesh g' = mg_mesh m).
Proof.
  intros fsub p file g' n H. unfold load_binary in H. destruct (load_prologue file) as [[h offset]| |]; [|discriminate..].
  destruct (proj2 (C66_only_what_is_listed _ _ g' _ _ _ _) H) as (m & Hm & Hne). exists h, offset, m. split; [reflexivity|]. split; [exact Hm|].
  intros Hb Hu Ht. assert (Hb' : Forall is_byte (drop (N.to_nat offset) file)).
  { rewrite <- (take_drop (N.to_nat offset) file) in Hb. apply List.Forall_app in Hb. apply Hb. }
  pose proof (C66_load _ _ _ _ _ _ Hb' Hm Hne Hu Ht) as K. rewrite H in K. tauto.
Qed.
Print Assumptions C66_file.

(* ------------------------------------------------------------------ *)
(** ** The conditions are met, and they are needed *)
Definition accepted_b (ids : list N) (r : NodeRec) : bool := bool_decide (nr_layer r ∈ ids) && bool_decide (is_Some (nr_attrs r)).
Definition listed_times_b (ids : list N) (ns : list NodeRec) : bool :=
  forallb (fun r => match nr_time r with
    | Some t => negb (accepted_b ids r) || (dyn_args_b (nr_layer r) (prefix_from_id (nr_id r)) &&
        forallb (fun s => negb (accepted_b ids s && bool_decide (place s = place r) && bool_decide (nr_time s = Some t)) || (nr_id s =? nr_id r)) ns)
    | None => true end) ns.
Lemma accepted_b_ok ids r : accepted ids r -> accepted_b ids r = true.
Proof. intros [H1 H2]. unfold accepted_b. rewrite !bool_decide_true by assumption. reflexivity. Qed.
Lemma listed_times_b_ok ids ns : listed_times_b ids ns = true -> listed_times ids ns.
Proof.
  intros H r t Hr Ha Ht. unfold listed_times_b in H. rewrite forallb_forall in H. specialize (H r (proj1 (elem_of_list_In _ _) Hr)). rewrite Ht, (accepted_b_ok _ _ Ha) in H.
  cbn in H. apply andb_true_iff in H as [H1 H2]. split; [apply dyn_args_b_ok, H1|]. rewrite forallb_forall in H2. intros s Hs As Ps Ts. specialize (H2 s (proj1 (elem_of_list_In _ _) Hs)).
  rewrite (accepted_b_ok _ _ As), !bool_decide_true in H2 by assumption. apply N.eqb_eq, H2.
Qed.
Definition times_ok_b (g : Graph) (ids : list N) (ns : list NodeRec) : bool :=
  listed_times_b ids ns && forallb (fun r => forallb (fun xk => match nr_time r, node_data g (fst xk) with
    | Some t, Some (k, Some t', _) => negb (bool_decide (k = place r) && Z.eqb t' t) || (fst xk =? nr_id r) | _, _ => true end) (map_to_list (g_lookup g))) ns.
Lemma times_ok_b_ok g ids ns : times_ok_b g ids ns = true -> times_ok g ids ns.
Proof.
  intros H. apply andb_true_iff in H as [H1 H2]. split; [apply listed_times_b_ok, H1|]. intros r t y a Hr _ Ht Hy. rewrite forallb_forall in H2.
  specialize (H2 r (proj1 (elem_of_list_In _ _) Hr)). rewrite forallb_forall in H2. destruct (looked_up _ _ _ Hy) as [k Hk]. specialize (H2 _ Hk). cbn [fst] in H2.
  rewrite Ht, Hy, bool_decide_true, Z.eqb_refl in H2 by reflexivity. apply N.eqb_eq, H2.
Qed.
Definition gone_ok_b (g : Graph) (ns : list NodeRec) : bool :=
  forallb (fun xk => bool_decide (fst xk ∈ map nr_id ns) || no_foreign_b g (fst xk)) (map_to_list (g_lookup g)).
Lemma gone_ok_b_ok g ns : gone_ok_b g ns = true -> gone_ok g ns.
Proof.
  intros H x Hx Hn. unfold gone_ok_b in H. rewrite forallb_forall in H. unfold g_has_node in Hx. apply bool_decide_eq_true in Hx as [k Hk].
  specialize (H (x, k) (layer_of_elem _ _ _ Hk)). cbn [fst] in H. rewrite bool_decide_false in H by exact Hn. apply no_foreign_b_ok, H.
Qed.

(** Bytes no graph would write: nodes listed twice, at different places and times, or for a
    layer that does not exist; an edge listed in both directions, one to itself, one to nowhere. *)
Definition node_entry (l x : N) (t : option Z) (a : NodeAttrs) : result (list N) := write_node ex_env lib (node_new x l t a).
Definition edge_entry (s t w : N) : result (list N) := write_edge lib (mkEdge s t (mkEA true w)).
Definition raw (enames : list Name) (ids : list N) (ns ds es : list (result (list N))) : list N :=
  match seq_writes [cd_write c_u64s ids; cd_write c_names (rg_names (pg_nodes lib)); cd_write c_names enames;
    dynamic_array ns; dynamic_array ds; dynamic_array es; cd_write c_bool false] with Ok bs => bs | _ => [] end.
Definition odd : list N := raw (rg_names (pg_edges lib)) (g_layer_ids ex_receiver)
  [node_entry PLACES 11 None (base_at 1 1 1); node_entry ROOMS 11 None (base_at 2 2 2); node_entry ROOMS 20 None (base_at 0 1 0); node_entry 99 30 None (base_at 0 0 0);
   node_entry PLACES 12 None (base_at 0 0 0)]
  [node_entry AGENTS (agent 0) (Some 1%Z) (base_at 3 3 3); node_entry AGENTS (agent 1) (Some 2%Z) (base_at 3 3 3); node_entry AGENTS (agent 1) (Some 4%Z) (base_at 4 4 4)]
  [edge_entry 11 20 1; edge_entry 11 11 1; edge_entry 20 11 2; edge_entry 11 30 1; edge_entry (agent 0) (agent 1) 7; edge_entry 11 12 8].
Definition odd_message : Message := Eval vm_compute in match message ex_env lib odd 0 with Val m _ => m | Fail _ => mkMessage [] [] [] None end.
Lemma odd_listed : message ex_env lib odd 0 = Val odd_message (len odd). Proof. vm_compute. reflexivity. Qed.
Lemma odd_bytes : Forall is_byte odd. Proof. apply List.Forall_forall. intros b Hb. apply N.ltb_lt. revert b Hb. apply forallb_forall. vm_compute. reflexivity. Qed.
Example C66_ex : Forall is_byte odd /\ message ex_env lib odd 0 = Val odd_message (len odd) /\ reachable ex_receiver /\
  mg_ids odd_message <> [] /\ UNKNOWN_LAYER ∉ mg_ids odd_message /\ times_ok (receiver ex_receiver odd_message) (mg_ids odd_message) (mg_nodes odd_message) /\
  gone_ok (receiver ex_receiver odd_message) (mg_nodes odd_message) /\ listed_times (mg_ids odd_message) (mg_nodes odd_message) /\
  (length (mg_nodes odd_message) = 8%nat /\ length (mg_edges odd_message) = 6%nat /\ Forall (fun r => er_attrs r <> None) (mg_edges odd_message)).
Proof.
  split; [exact odd_bytes|]. split; [exact odd_listed|]. split; [exact ex_receiver_reachable|]. split; [discriminate|].
  split; [apply (bool_decide_unpack _); vm_compute; exact I|]. split; [apply times_ok_b_ok; vm_compute; reflexivity|]. split; [apply gone_ok_b_ok; vm_compute; reflexivity|].
  split; [apply listed_times_b_ok; vm_compute; reflexivity|]. split; [reflexivity|]. split; [reflexivity|]. repeat (constructor; [discriminate|]). constructor.
Qed.
(** What the model makes of them. *)
Definition placed (g : Graph) (x : N) (k : LayerKey) (t : option Z) (v : N) : bool :=
  match node_data g x with Some (k', t', Attrs.ANode b) => bool_decide (k' = k /\ t' = t) && (v_x (a_pos b) =? v) | _ => false end.
Definition linked_as (g : Graph) (u v w : N) : bool :=
  match edge_at g u v with Some e => (e_src e =? u) && (e_tgt e =? v) && (ea_weight (e_info e) =? w) | None => false end.
Example C66_case : (match update_from_buffer ex_env lib ex_receiver odd 0 with
  | Val g _ => placed g 11 (key_static PLACES) None 2 && placed g 20 (key_static ROOMS) None 0 &&
      placed g (agent 1) (key_dynamic AGENTS pfx_a) (Some 2%Z) 4 && negb (g_has_node g 30) && negb (g_has_node g 13) && negb (g_has_node g 22) &&
      linked_as g 11 20 2 && linked_as g 12 11 8
  | Fail _ => false end) = true.
Proof. vm_compute. reflexivity. Qed.

(** Edges of a class the program does not have get default attributes; listed twice, the second
    one stores a null pointer in the edge (C46). *)
Definition bare_edge (s t : N) : result (list N) := seq_writes [fixed_array 3; cd_write c_u64 s; cd_write c_u64 t; cd_write c_u8 0].
Definition foreign (es : list (result (list N))) : list N := raw [str "OtherEdgeAttributes"] [PLACES; ROOMS]
  [node_entry PLACES 11 None (base_at 1 1 1); node_entry ROOMS 20 None (base_at 2 2 2)] [] es.
Theorem C66_unknown_edge_class_refuted :
  (exists g n, read_graph ex_env lib (foreign [bare_edge 11 20]) 0 = Val g n /\ linked_as g 11 20 (ea_weight ea_default) = true) /\
  read_graph ex_env lib (foreign [bare_edge 11 20; bare_edge 20 11]) 0 = Fail Undefined.
Proof.
  split; [|vm_compute; reflexivity].
  assert (K : (match read_graph ex_env lib (foreign [bare_edge 11 20]) 0 with Val g _ => linked_as g 11 20 (ea_weight ea_default) | _ => false end) = true) by (vm_compute; reflexivity).
  destruct (read_graph ex_env lib (foreign [bare_edge 11 20]) 0) as [g n|]; [|discriminate]. exists g, n. split; [reflexivity|exact K].
Qed.
Print Assumptions C66_unknown_edge_class_refuted.
