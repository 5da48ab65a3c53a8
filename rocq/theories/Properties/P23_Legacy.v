(** C53 attributes in files of older versions. *)
From Coq Require Import NArith ZArith Bool List Lia String.
From stdpp Require Import base list gmap.
From Verif.Model Require Import Types Mesh Attrs Node EdgeContainer SLayer DLayer Graph Binary Versioning AttrCodec Registry GraphCodec.
From Verif.Spec Require Import BinarySpec AttrSpec RegistrySpec ProgramSpec AbstractGraph GraphHistory GraphObs GraphFileSpec LegacySpec.
From Verif.Proof Require Import BinaryP SaveLoad AttrP FileP GraphRep GraphObsP GraphCodecP TransferP LegacyP LegacyFileP.
From Verif.Properties Require Import P12_Files P13_Registry ExGraph P14_GraphFiles.
Local Open Scope N_scope.

(** C53: an old version wrote the semantic part in its own layout ([old_sem_bytes]) and then the
    members of the class, exactly as today ([rest]).  The reader of the current program, told the
    version of the file, gets what [from_old] says and what [kept] says a file keeps, and stops
    right behind them.  [ev_fsub] is the subtraction of 32 bit floats. *)
Theorem C53_old_semantic_attributes : forall old now lo hi a s,
  older (ev_version old) 1 0 4 -> current now -> (forall x y, fits 32 (ev_fsub old x y)) ->
  vec_ok 32 lo -> vec_ok 32 hi -> attrs_ok a -> sem_of a = Some s ->
  exists ob nb rest, old_sem_bytes (ev_version old) lo hi s = Ok ob /\
    write_attr_fields now (ASem s) = Ok nb /\ write_attr_fields now a = Ok (nb ++ rest) /\
    Forall is_byte (ob ++ rest) /\
    reads_back (read_attr_fields old (kind_of a)) (ob ++ rest)
      (kept (with_sem a (from_old (ev_version old)
         (mkVec3 (ev_fsub old (v_x hi) (v_x lo)) (ev_fsub old (v_y hi) (v_y lo)) (ev_fsub old (v_z hi) (v_z lo))) s))).
Proof.
  intros old now lo hi a s Ho Hn Hsub Hlo Hhi Ha Hs.
  exact (old_semantic old now Ho (current_new _ Hn) Hsub lo hi Hlo Hhi a s Ha Hs).
Qed.
Print Assumptions C53_old_semantic_attributes.
Theorem C53_old_plain_attributes : forall old now a,
  older (ev_version old) 1 0 4 -> current now -> attrs_ok a -> sem_of a = None ->
  exists ob nb rest, old_base_bytes (attrs_base a) = Ok ob /\
    write_attr_fields now (Attrs.ANode (attrs_base a)) = Ok nb /\ write_attr_fields now a = Ok (nb ++ rest) /\
    Forall is_byte (ob ++ rest) /\
    reads_back (read_attr_fields old (kind_of a)) (ob ++ rest) (attrs_set_base a (not_predicted (attrs_base a))).
Proof. intros old now a Ho Hn. exact (old_plain old now a Ho (current_new _ Hn)). Qed.
Print Assumptions C53_old_plain_attributes.

(** Whole graphs: the bytes an old version wrote for a graph [h] whose boxes have the [corners]
    load as [h] with those attributes.  Before 1.0.2 there were no class names in the file: the
    type ids are those of the program reading it, so the writer has to be the same program. *)
Theorem C53_old_graph : forall old now corners ks ks' p q mesh_layer h im,
  older (ev_version old) 1 0 4 -> current now -> (forall x y, fits 32 (ev_fsub old x y)) ->
  (forall x, vec_ok 32 (fst (corners x)) /\ vec_ok 32 (snd (corners x))) ->
  program_of ks p -> program_of ks' q -> all_classes ks -> all_classes ks' -> (length ks <= 256)%nat ->
  (older (ev_version old) 1 0 2 -> p = q) -> fits 64 mesh_layer -> reachable h -> saveable h ->
  exists bs g', old_graph_bytes now (ev_version old) corners mesh_layer p h im = Ok bs /\ Forall is_byte bs /\
    reads_back (read_graph old q) bs g' /\ reachable g' /\
    loaded_from_old (ev_fsub old) (ev_version old) corners h g' /\ g_mesh g' = if im then g_mesh h else None.
Proof.
  intros old now corners ks ks' p q ml h im Ho Hn Hsub Hc Hp Hq Hks Hks' Hlen Hsame Hml Hh HS.
  destruct (reachable_RepL h Hh) as [ah HL].
  destruct (old_file_effect old now corners Ho (current_new _ Hn) Hsub Hc ks ks' p q Hp Hq Hks Hks' Hlen ml h im Hsame Hml (saveable_fits h ah HL HS))
    as (b0 & b1 & W & B & R0 & R1).
  destruct (fresh_graph h Hh) as (g & Hg & Hr & HR & Hi & Hm). destruct (init_empty _ _ HR) as [E1 E2].
  destruct (transfer_ok h ah HL HS (as_old old corners) g im Hr Hi (empty_updatable g h E1 E2)) as (g' & T & Hr' & I' & N' & _ & X & M).
  exists (b0 ++ b1), g'. split; [exact W|]. split; [exact B|]. split.
  { unfold read_graph. eapply reads_bind; [exact R0|]. rewrite Hg. cbn [lift].
    apply (reads_bind (ret g) _ [] b1 g); [apply reads_ret|]. apply R1, T. }
  split; [exact Hr'|]. split.
  - split; [exact I'|]. split; [apply same_layers; assumption|]. split; [|apply X, E2].
    intros x. rewrite N'. destruct (node_data h x) as [[[k t] a]|]; [|reflexivity]. cbn. unfold as_old. destruct (corners x) as [lo hi]. reflexivity.
  - rewrite M, Hm. destruct (g_mesh h); destruct im; reflexivity.
Qed.
Print Assumptions C53_old_graph.
(** Files of versions 1.0.2 and 1.0.3 (older ones are rejected: C40). *)
Theorem C53_old_file : forall fsub now ver corners ks ks' p q h im,
  ver = mkV 1 0 2 \/ ver = mkV 1 0 3 -> current now -> (forall x y, fits 32 (fsub x y)) ->
  (forall x, vec_ok 32 (fst (corners x)) /\ vec_ok 32 (snd (corners x))) ->
  program_of ks p -> program_of ks' q -> all_classes ks -> all_classes ks' -> (length ks <= 256)%nat ->
  reachable h -> saveable h ->
  exists hb bs g', header_bytes (mkHeader (str "main") ver) = Ok hb /\ old_graph_bytes now ver corners 0 p h im = Ok bs /\
    (len (hb ++ bs) < max_object -> exists n, load_binary fsub q (hb ++ bs) = Val g' n) /\
    reachable g' /\ loaded_from_old fsub ver corners h g' /\ g_mesh g' = if im then g_mesh h else None.
Proof.
  intros fsub now ver corners ks ks' p q h im Hver Hn Hsub Hc Hp Hq Hks Hks' Hlen Hh HS.
  set (old := mkEnv ver fsub).
  assert (Ho : older (ev_version old) 1 0 4 /\ ~ older (ev_version old) 1 0 2) by (unfold older; destruct Hver as [-> | ->]; cbn; lia).
  destruct Ho as [Ho1 Ho2].
  destruct (C53_old_graph old now corners ks ks' p q 0 h im Ho1 Hn Hsub Hc Hp Hq Hks Hks' Hlen) as (bs & g' & W & B & R & Hr & HL & HM);
    [intros H; contradiction|reflexivity|exact Hh|exact HS|].
  destruct (header_round (mkHeader (str "main") ver)) as (hb & Hhb & Bh & Rh).
  { split; [split; [reflexivity|repeat constructor]|]. destruct Hver as [-> | ->]; repeat split. }
  exists hb, bs, g'. split; [exact Hhb|]. split; [exact W|]. split; [|auto].
  intros Hl. unfold load_binary, load_prologue. rewrite (Rh bs Hl).
  assert (Hcc : check_compatibility (default header_legacy (Some (mkHeader (str "main") ver))) header_current = Ok tt) by (destruct Hver as [-> | ->]; vm_compute; reflexivity).
  rewrite Hcc. cbn [rbind]. change (default header_legacy (Some (mkHeader (str "main") ver))) with (mkHeader (str "main") ver).
  unfold len. rewrite Nat2N.id, drop_app. cbn [h_version]. fold old. specialize (R [] []). cbn [app] in R. rewrite app_nil_r in R.
  eexists. apply R. unfold len in *. rewrite app_length in Hl. lia.
Qed.
Print Assumptions C53_old_file.

(** a place of version 1.0.2 whose box spans from (0, 0, 0) to (1, 1, 1) *)
Definition env_102 : Env := mkEnv (mkV 1 0 2) (fun a b => (a - b) mod 2 ^ 32).
Definition corner0 : Vec3 := mkVec3 0 0 0.
Definition corner1 : Vec3 := mkVec3 float_one float_one float_one.
Definition ex_sem : SemAttrs := match sem_of ex_place with Some s => s | None => sem_default end.
Example C53_ex : older (ev_version env_102) 1 0 4 /\ (forall x y, fits 32 (ev_fsub env_102 x y)) /\ sem_of ex_place = Some ex_sem /\
  a_predicted (attrs_base ex_place) = true /\ c_a (s_color ex_sem) = 4 /\
  exists ob nb rest, old_sem_bytes (mkV 1 0 2) corner0 corner1 ex_sem = Ok ob /\
    write_attr_fields ex_env (ASem ex_sem) = Ok nb /\ write_attr_fields ex_env ex_place = Ok (nb ++ rest) /\
    match read_attr_fields env_102 KPlace ([1; 2] ++ (ob ++ rest) ++ [3]) 2 with
    | Val (APlace p) pos => pos = 2 + len (ob ++ rest) /\ a_predicted (s_base (p_sem p)) = false /\
        s_color (p_sem p) = mkColor 1 2 3 255 /\ bb_dim (s_bbox (p_sem p)) = corner1 /\
        s_label (p_sem p) = 12 /\ p_pcl p = [10; 11] /\ p_nfv p = 5
    | _ => False
    end.
Proof.
  split; [right; split; [reflexivity|right; split; [reflexivity|reflexivity]]|].
  split; [intros x y; apply N.mod_lt; discriminate|]. do 3 (split; [reflexivity|]).
  destruct (old_sem_bytes (mkV 1 0 2) corner0 corner1 ex_sem) as [ob| |] eqn:E1; [|vm_compute in E1; discriminate..].
  destruct (write_attr_fields ex_env (ASem ex_sem)) as [nb| |] eqn:E2; [|vm_compute in E2; discriminate..].
  destruct (write_attr_fields ex_env ex_place) as [wb| |] eqn:E3; [|vm_compute in E3; discriminate..].
  exists ob, nb, (drop (List.length nb) wb).
  vm_compute in E1, E2, E3. injection E1 as <-. injection E2 as <-. injection E3 as <-.
  split; [reflexivity|]. split; [reflexivity|]. split; [reflexivity|]. vm_compute. repeat split.
Qed.
(** the example graph of C41 in a file of version 1.0.2, with a predicted node 15 *)
Definition old_ex_base : BaseAttrs := mkBase (mkVec3 1 2 3) 77 true true.
Definition old_ex : Graph := build (ex_ops ++ [GEmplace PLACES 15 (Attrs.ANode old_ex_base)]).
Definition old_ex_corners (_ : N) : Vec3 * Vec3 := (corner0, corner1).
Definition old_ex_file : result (list N) :=
  let! hb := header_bytes (mkHeader (str "main") (mkV 1 0 2)) in
  let! bs := old_graph_bytes ex_env (mkV 1 0 2) old_ex_corners 0 lib old_ex true in Ok (hb ++ bs).
Definition old_ex_loaded : bool :=
  match old_ex_file with
  | Ok file => match load_binary (fun a b => (a - b) mod 2 ^ 32) lib file with
      | Val g' _ => match node_data g' 15 with
          | Some (_, _, Attrs.ANode b) => negb (a_predicted b) && (a_time b =? 77) && a_active b &&
              g_has_node g' 10 && (g_num_nodes g' false =? g_num_nodes old_ex false)%nat &&
              (g_num_edges g' =? g_num_edges old_ex)%nat
          | _ => false end
      | _ => false end
  | _ => false
  end.
Example C53_file_ex : reachable old_ex /\ saveable old_ex /\ node_data old_ex 15 = Some (key_static PLACES, None, Attrs.ANode old_ex_base) /\ old_ex_loaded = true.
Proof.
  assert (Hr : reachable old_ex) by (apply run_b_start; vm_compute; reflexivity).
  split; [exact Hr|]. split; [|split; [vm_compute; reflexivity|vm_compute; reflexivity]].
  apply saveable_b_ok; [exact Hr| |vm_compute; reflexivity].
  assert (g_mesh old_ex = None) as -> by (vm_compute; reflexivity). discriminate.
Qed.
