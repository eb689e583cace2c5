(** The unit tests of the repository (spta/tests), run on the model.

    Each example takes the inputs of one test and states the outcome that the test asserts.  They are no proofs of
    properties: they check that the model does what the code is known to do. *)
From Coq Require Import String QArith.
From Verif Require Import Base.Py Base.Arr Base.Str Base.Dict Base.Float Model.Region Model.Maths Model.Series Model.Arrays Model.Errors
  Model.Distance Model.Models Model.Clustering Model.SolverFiles Model.TrainInput Model.PartitionAnalysis Model.Extraction Model.Scaling Model.FuzzyMask Model.SavedRegion.
Local Close Scope Q_scope. Local Open Scope nat_scope.
Local Notation length := List.length.

Definition F (z : Z) : fnum := Fin (inject_Z z).
(** a decimal with one digit after the point *)
Definition D1 (z : Z) : fnum := Fin (z # 10).
(** numbers are compared in lowest terms *)
Definition norm (v : fnum) : fnum := match v with Fin q => Fin (Qred q) | _ => v end.
Definition rmap {A B} (f : A -> B) (r : res A) : res B := match r with Ok a => Ok (f a) | Raise e => Raise e end.

(* ---------- util/test_error.py ---------- *)

(** test_error.py:12-23 *)
Example mase_zeros : rmap norm (mase (map F [0;0;0]%Z) (map F [0;0;0]%Z) (Some (map F [1;2;3]%Z))) = Ok (F 0).
Proof. vm_compute. reflexivity. Qed.
(** test_error.py:25-36 *)
Example mase_exact_forecast : rmap norm (mase (map F [4;5;6]%Z) (map F [4;5;6]%Z) (Some (map F [1;2;3]%Z))) = Ok (F 0).
Proof. vm_compute. reflexivity. Qed.
(** test_error.py:38-49 *)
Example mase_forecast_constant_error :
  rmap norm (mase (map D1 [41;51;59]%Z) (map F [4;5;6]%Z) (Some (map F [1;2;3]%Z))) = Ok (Fin (1 # 10)).
Proof. vm_compute. reflexivity. Qed.
(** test_error.py:51-62 *)
Example mase_forecast_varying_error :
  rmap norm (mase (map D1 [41;52;57]%Z) (map F [4;5;6]%Z) (Some (map F [1;2;3]%Z))) = Ok (Fin (1 # 5)).
Proof. vm_compute. reflexivity. Qed.

(* ---------- util/test_maths.py ---------- *)

(** test_maths.py:15-53 *)
Example find_two_balanced_divisors_tests :
  map find_two_balanced_divisors [7;4;30;100]%Z = [Ok (1,7); Ok (2,2); Ok (5,6); Ok (10,10)]%Z.
Proof. vm_compute. reflexivity. Qed.

(** test_maths.py:61-168: the candidates that np.random.choice is given are asserted here; what a choice of [n]
    different candidates satisfies is property C63 *)
Example random_integers_candidates :
  let run n lo hi bl := random_integers_with_blacklist (fun l => l) (fun l n => if (Z.of_nat (length l) <? n)%Z then Raise ValueError else Ok (firstn (Z.to_nat n) l)) n lo hi bl in
  run 1%Z 0%Z 0%Z [] = Ok [0]%Z /\ run 2%Z 0%Z 1%Z [] = Ok [0;1]%Z /\
  run 2%Z 0%Z 2%Z [] = Ok [0;1]%Z /\ run 3%Z 1%Z 10%Z [] = Ok [1;2;3]%Z /\
  run 3%Z 0%Z 5%Z [1;3;4]%Z = Ok [0;2;5]%Z /\ run 5%Z 1%Z 20%Z [1;3;4;7;8;11;14;16]%Z = Ok [2;5;6;9;10]%Z.
Proof. vm_compute. repeat split; reflexivity. Qed.

(** test_maths.py:176-219 *)
Example years_to_series_interval_tests :
  years_to_series_interval 1979 1979 1979 4 = Ok (0, 1460)%Z /\
  years_to_series_interval 1980 1980 1979 4 = Ok (1460, 2924)%Z /\
  years_to_series_interval 2014 2015 1979 4 = Ok (51136, 54056)%Z.
Proof. vm_compute. repeat split; reflexivity. Qed.

(* ---------- util/test_arrays.py ---------- *)

(** [block m x1 x2 y1 y2 v]: m[x1:x2, y1:y2] has v everywhere *)
Definition block (m : arr2 Z) (x1 x2 y1 y2 v : Z) : bool :=
  let b := slice2 m x1 x2 y1 y2 in
  ((Z.of_nat (a2x b) =? x2 - x1) && (Z.of_nat (a2y b) =? y2 - y1) && (Z.of_nat (length (a2d b)) =? (x2 - x1) * (y2 - y1)) &&
   forallb (Z.eqb v) (a2d b))%Z%bool.
Definition blocks (x y : nat) (k : Z) (bs : list (Z * Z * Z * Z * Z)) : res bool :=
  rmap (fun m => ((a2x m =? x) && (a2y m =? y) && forallb (fun '(x1, x2, y1, y2, v) => block m x1 x2 y1 y2 v) bs)%bool)
       (regular_partitioning x y k).

(** test_arrays.py:16-24 *)
Example regular_partitioning_region_too_small : regular_partitioning 2 20 12 = Raise ValueError.
Proof. vm_compute. reflexivity. Qed.
(** test_arrays.py:26-59 *)
Example regular_partitioning_exact :
  blocks 20 12 12 [(0,5,0,4,0); (0,5,4,8,1); (5,10,8,12,5); (15,20,8,12,11)]%Z = Ok true.
Proof. vm_compute. reflexivity. Qed.
(** test_arrays.py:61-93 *)
Example regular_partitioning_y_len_a_bit_larger :
  blocks 20 13 12 [(0,5,4,8,1); (0,5,8,13,2); (5,10,8,12,5); (15,20,8,13,11)]%Z = Ok true.
Proof. vm_compute. reflexivity. Qed.
(** test_arrays.py:95-127 *)
Example regular_partitioning_x_len_a_bit_larger :
  blocks 21 12 12 [(0,5,8,12,2); (10,15,8,12,8); (15,21,0,4,9); (15,21,8,12,11)]%Z = Ok true.
Proof. vm_compute. reflexivity. Qed.
(** test_arrays.py:129-161 *)
Example regular_partitioning_both_a_bit_larger :
  blocks 21 13 12 [(0,5,4,8,1); (0,5,8,13,2); (15,21,0,4,9); (15,21,8,13,11)]%Z = Ok true.
Proof. vm_compute. reflexivity. Qed.
(** test_arrays.py:163-195 *)
Example regular_partitioning_y_len_a_bit_shorter :
  blocks 20 11 12 [(0,5,4,8,1); (0,5,8,11,2); (5,10,4,8,4); (15,20,8,11,11)]%Z = Ok true.
Proof. vm_compute. reflexivity. Qed.
(* test_arrays.py:197-211 (23 labels on a grid of 90 by 95) is an instance of property C11 and too large to be run here *)

(** test_arrays.py:222-284 *)
Example sliding_window_tests :
  sliding_window [1;2;3;4;5;6;7;8] 1 1 = Ok [[1];[2];[3];[4];[5];[6];[7];[8]] /\
  sliding_window [1;2;3;4;5;6;7;8] 2 1 = Ok [[1;2];[2;3];[3;4];[4;5];[5;6];[6;7];[7;8]] /\
  sliding_window [1;2;3;4;5;6;7;8] 3 2 = Ok [[1;2;3];[3;4;5];[5;6;7]].
Proof. vm_compute. repeat split; reflexivity. Qed.

(* ---------- model/test_knn.py ---------- *)

(** np.argpartition by sorting the positions (one of the results that numpy may give), and the RMSE without its square
    root, which is monotone *)
Fixpoint insert_pos (d : list fnum) (i : nat) (l : list nat) : list nat :=
  match l with [] => [i] | j :: l' => if flt (nth i d NaN) (nth j d NaN) then i :: l else j :: insert_pos d i l' end.
Definition argpart (d : list fnum) (kth : nat) : list nat := fold_left (fun l i => insert_pos d i l) (seq 0 (length d)) [].
Definition knn := find_k_nearest_neighbors (rmse_measure (fun v => v)) argpart.

(** test_knn.py:19-31 *)
Example fail_if_a_neighbor_has_wrong_length : knn (map F [1;2;3;4]%Z) 2 [map F [1;2;3;5]%Z; map F [1;5;3;4;0]%Z] = Raise ValueError.
Proof. vm_compute. reflexivity. Qed.
(** test_knn.py:33-48 *)
Example find_k2_when_two_are_available : knn (map F [1;2;3;4]%Z) 2 [map F [1;2;3;5]%Z; map F [1;5;3;4]%Z] = Ok [0;1].
Proof. vm_compute. reflexivity. Qed.
(** test_knn.py:50-65 *)
Example find_k1_example : knn (map F [1;2;3;4]%Z) 1 [map F [1;2;3;5]%Z; map F [1;2;3;4]%Z] = Ok [1].
Proof. vm_compute. reflexivity. Qed.
(** test_knn.py:67-89 *)
Example find_k3_example :
  rmap (fun l => (length l, forallb (fun i => existsb (Nat.eqb i) l) [1;4;5]))
    (knn (map F [1;2;3;4;5]%Z) 3
       (map (map D1) [[19;21;30;34;51]; [10;21;30;40;51]; [10;21;35;40;53]; [10;20;10;40;50]; [10;20;29;41;49];
                      [9;21;31;39;51]; [10;21;30;50;51]; [0;21;30;50;51]; [15;25;35;45;55]]%Z)) = Ok (3, true).
Proof. vm_compute. reflexivity. Qed.
(** test_knn.py:97-114 *)
Example predict_future_values_with_knn_test :
  rmap (map norm) (predict_future_values_with_knn (rmse_measure (fun v => v)) argpart (map F (zrange 0 20)) 3 5)
  = Ok (map F [13;14;15;16;17]%Z).
Proof. vm_compute. reflexivity. Qed.

(* ---------- arima/test_arima_suite.py ---------- *)

(** test_arima_suite.py:8-22 *)
Example arima_suite_test :
  let l := arima_params_gen [0;1;2;4;6;8;10]%Z [0;1;2]%Z [0;1;2]%Z in
  length l = 63 /\ nth_error l 0 = Some (0,0,0)%Z /\ nth_error l 62 = Some (10,2,2)%Z.
Proof. vm_compute. repeat split; reflexivity. Qed.

(* ---------- clustering/test_factory.py, test_kmedoids.py, test_regular.py ---------- *)

Definition params (mode : string) (max_iter : Z) : kparams := KParams mode None max_iter (Fin (1 # 1000)) true.

(** test_factory.py:18-64 *)
Example factory_tests :
  factory_instance "regular" 2 1 (params "lite" 1000) = Ok (CRegular 2) /\
  rmap (fun c => (c_name c, c_k c, c_seed c)) (factory_instance "kmedoids" 2 1 (params "lite" 1000)) = Ok ("kmedoids"%string, 2%Z, Ok 1%Z) /\
  factory_instance "kmedoids" 2 1 (params "lite" 5000) = Ok (CKmedoids (KMeta 2 1 "lite" None 5000 (Fin (1 # 1000)) true)).
Proof. vm_compute. repeat split; reflexivity. Qed.

(** test_kmedoids.py:43-67 *)
Example kmedoids_repr_tests :
  c_repr (CKmedoids (kmeta_default 5 2 "lite")) = "kmedoids_k5_seed2_lite"%string /\
  c_repr (CKmedoids (KMeta 3 2 "lite" (Some [1;2;3]%Z) 1000 (Fin (1 # 1000)) true)) = "kmedoids_k3_seed2_lite_im1-2-3"%string.
Proof. vm_compute. repeat split; reflexivity. Qed.

(** test_kmedoids.py:81-105 *)
Example kmedoids_from_names_tests :
  rmap (fun m => (km_k m, km_seed m, km_mode m)) (kmeta_from_repr "kmedoids_k3_seed0_lite") = Ok (3%Z, 0%Z, "lite"%string) /\
  rmap (fun m => (km_k m, km_seed m, km_mode m)) (kmeta_from_classifier_label "13-0-6" "lite") = Ok (13%Z, 0%Z, "lite"%string).
Proof. vm_compute. repeat split; reflexivity. Qed.

(** test_regular.py:15-35 *)
Example regular_from_repr_tests : regular_from_repr "regular_k2" = Ok (CRegular 2) /\ regular_from_repr "regular_k150" = Ok (CRegular 150).
Proof. vm_compute. repeat split; reflexivity. Qed.

(* ---------- clustering/test_suite.py ---------- *)

(** test_suite.py:28-138 *)
Example suite_lists :
  suite_metadatas "regular" [2;3]%Z NoSeeds (params "lite" 1000) = Ok [CRegular 2; CRegular 3] /\
  suite_metadatas "regular" [2;3;4]%Z NoSeeds (params "lite" 1000) = Ok [CRegular 2; CRegular 3; CRegular 4] /\
  rmap (map c_repr) (suite_metadatas "kmedoids" [2;3]%Z (OneSeed 5) (params "lite" 1000))
    = Ok ["kmedoids_k2_seed5_lite"; "kmedoids_k3_seed5_lite"]%string /\
  rmap (map c_repr) (suite_metadatas "kmedoids" [2;3]%Z (ManySeeds [0;1]%Z) (params "lite" 1000))
    = Ok ["kmedoids_k2_seed0_lite"; "kmedoids_k2_seed1_lite"; "kmedoids_k3_seed0_lite"; "kmedoids_k3_seed1_lite"]%string.
Proof. vm_compute. repeat split; reflexivity. Qed.

Definition small2015 : rmeta := RMeta "nordeste_small" (Rect 40 50 50 60) 2015 2015 1 false "raw".

(** test_suite.py:140-184 *)
Example suite_files :
  analysis_csv_filename "kmedoids-quick" = "clustering__kmedoids-quick.csv"%string /\
  analysis_csv_filepath "kmedoids-quick" "dtw" "outputs" small2015
    = "outputs/nordeste_small_2015_2015_1spd/dtw/clustering__kmedoids-quick.csv"%string /\
  medoid_series_csv_filepath "kmedoids-quick" "dtw" "outputs" small2015
    = "outputs/nordeste_small_2015_2015_1spd/dtw/medoid_data__kmedoids-quick.csv"%string.
Proof. vm_compute. repeat split; reflexivity. Qed.

(** test_suite.py:186-224; the csv reader drops the line ends *)
Example suite_result_test :
  retrieve_suite_result (Some
    ["clustering total_cost medoids"; "kmedoids_k2_seed0_lite 380.062 |(45,86) (47,91) |";
     "kmedoids_k2_seed1_lite 380.062 |(45,86) (47,91) |"; "kmedoids_k3_seed0_lite 351.926 |(45,86) (48,89) (45,92) |";
     "kmedoids_k3_seed1_lite 351.926 |(45,86) (45,92) (48,89) |"]%string) =
  Ok [("kmedoids_k2_seed0_lite"%string, [(45,86); (47,91)]%Z); ("kmedoids_k2_seed1_lite"%string, [(45,86); (47,91)]%Z);
      ("kmedoids_k3_seed0_lite"%string, [(45,86); (48,89); (45,92)]%Z); ("kmedoids_k3_seed1_lite"%string, [(45,86); (45,92); (48,89)]%Z)].
Proof. vm_compute. reflexivity. Qed.

Definition organized (ks seeds : list Z) : res (list (Z * list Z)) :=
  l <- suite_metadatas "kmedoids" ks (ManySeeds seeds) (params "lite" 1000) ;;
  rmap (map (fun '(s, l) => (s, map c_k l))) (organize_kmedoids_suite l).
(** test_suite.py:235-306 *)
Example organize_tests :
  organized [2]%Z [0]%Z = Ok [(0, [2])]%Z /\ organized [3;5;2]%Z [1]%Z = Ok [(1, [2;3;5])]%Z /\
  organized [3;5;2;4]%Z [1;2]%Z = Ok [(1, [2;3;4;5]); (2, [2;3;4;5])]%Z.
Proof. vm_compute. repeat split; reflexivity. Qed.

Definition elbow_k (costs : list (Z * Z)) : res Z :=
  rmap c_k (find_cost_elbow_given_order (map (fun '(k, v) => (CKmedoids (kmeta_default k 1 "lite"), F v)) costs)
              (map (fun '(k, _) => CKmedoids (kmeta_default k 1 "lite")) costs)).
(** test_suite.py:318-418 *)
Example elbow_tests :
  elbow_k [(2,7); (3,5); (4,4)]%Z = Ok 3%Z /\
  elbow_k [(2,8); (3,27); (4,64); (5,125); (6,216)]%Z = Ok 5%Z /\
  elbow_k [(2,10976); (3,7538); (4,5056); (5,3650); (6,3392); (7,4306); (8,6368); (9,9506); (10,13600); (11,18482); (12,23936)]%Z = Ok 6%Z /\
  elbow_k [(2,10976); (4,5056); (6,3392); (7,4306); (8,6368); (9,9506); (12,23936)]%Z = Ok 6%Z.
Proof. vm_compute. repeat split; reflexivity. Qed.

(* ---------- classifier/test_sliding_window.py, test_train_input.py ---------- *)

(** the windows of one row that counts up from [z] *)
Definition counting (label : string) (z : Z) : string * list fnum := (label, map F (zrange z (z + 7))).
Definition windows_from (label : string) (z w : Z) : list (string * list fnum * nat) :=
  map (fun n => (label, map F (zrange (z + Z.of_nat n) (z + Z.of_nat n + w)), n)) (seq 0 (Z.to_nat (8 - w))).
(** test_sliding_window.py:60-104 *)
Example labeled_windows_tests :
  apply_sliding_window_to_labeled_series [counting "a" 0] 3 7 = Ok (windows_from "a" 0 3) /\
  apply_sliding_window_to_labeled_series [counting "a" 0] 4 7 = Ok (windows_from "a" 0 4) /\
  apply_sliding_window_to_labeled_series [counting "a" 0; counting "b" 10] 3 7 = Ok (windows_from "a" 0 3 ++ windows_from "b" 10 3) /\
  apply_sliding_window_to_labeled_series [counting "a" 0; counting "b" 10; counting "a" 20] 3 7
    = Ok (windows_from "a" 0 3 ++ windows_from "b" 10 3 ++ windows_from "a" 20 3).
Proof. vm_compute. repeat split; reflexivity. Qed.

(** test_train_input.py:75-97, 111-142 *)
Example choice_files_tests :
  csv_filepaths MinDistance "kmedoids-quick" "dtw" "outputs" small2015 10 0 =
    ("outputs/nordeste_small_2015_2015_1spd/dtw/random_point_dist_medoid__kmedoids-quick_count10_seed0.csv",
     "outputs/nordeste_small_2015_2015_1spd/dtw/hist_dist_medoid__kmedoids-quick_count10_seed0.csv")%string /\
  csv_filepaths (MinError (PAutoArima 1 1 3 3 None true) 8 "sMAPE") "kmedoids-quick" "dtw" "outputs" small2015 10 0 =
    ("outputs/nordeste_small_2015_2015_1spd/dtw/random_point_medoid_min_pred_error__auto-arima-start_p1-start_q1-max_p3-max_q3-dNone-stepwiseTrue__tp8__sMAPE__kmedoids-quick_count10_seed0.csv",
     "outputs/nordeste_small_2015_2015_1spd/dtw/hist_medoid_min_pred_error__auto-arima-start_p1-start_q1-max_p3-max_q3-dNone-stepwiseTrue__tp8__sMAPE__kmedoids-quick_count10_seed0.csv")%string.
Proof. vm_compute. repeat split; reflexivity. Qed.

(* ---------- region/test_centroid.py, test_cluster.py ---------- *)

(** stub_region.py:18-36, stub_distance.py:6-30 *)
Definition stub3 : stregion fnum := TPlain (mk3 3 2 3 (map F [1;4;7;11;14;17; 2;5;8;12;15;18; 3;6;9;13;16;19]%Z)).
Definition stub_matrix : mat := Mat 6 (map (map F)
  [[0;11;12;13;14;15]; [11;0;8;5;7;9]; [12;8;0;9;12;13]; [13;5;9;0;16;18]; [14;7;12;16;0;14]; [15;9;13;18;14;0]]%Z).
Definition no_env : denv := DEnv (fun _ => Raise ValueError) (fun _ _ => NaN) (fun _ _ => NaN) NaN.
Definition centroid (r : stregion fnum) : res (option point) :=
  rmap fst (find_centroid_and_distances no_env r None true (DObj PlainDTW (Some stub_matrix) false)).
Definition cluster_of (members : list Z) (r : stregion fnum) (i : Z) : res (stregion fnum) :=
  p <- from_membership_array members 2 3 ;; create_spt_cluster p r i.

(** test_centroid.py:26-36 *)
Example centroid_region : centroid stub3 = Ok (Some (0, 1)%Z).
Proof. vm_compute. reflexivity. Qed.
(** test_centroid.py:38-62 *)
Example centroid_clusters :
  bind (cluster_of [1;0;1;1;0;0]%Z stub3 0) centroid = Ok (Some (0, 1)%Z) /\
  bind (cluster_of [1;0;1;1;0;0]%Z stub3 1) centroid = Ok (Some (0, 2)%Z).
Proof. vm_compute. repeat split; reflexivity. Qed.

(** test_cluster.py:45-84 *)
Example cluster_series_at :
  let c := cluster_of [1;0;0;1;0;1]%Z stub3 1 in
  map (fun pt => bind c (fun r => series_at r pt)) [(0,0); (1,0); (1,2)]%Z
    = [Ok (map F [1;2;3]%Z); Ok (map F [11;12;13]%Z); Ok (map F [17;18;19]%Z)] /\
  map (fun pt => bind c (fun r => series_at r pt)) [(0,1); (0,2); (1,1)]%Z = [Raise ValueError; Raise ValueError; Raise ValueError].
Proof. vm_compute. repeat split; reflexivity. Qed.
(** test_cluster.py:86-113 *)
Example cluster_iterator :
  bind (cluster_of [1;0;0;1;0;1]%Z stub3 1) t_items =
  Ok [((0,0)%Z, map F [1;2;3]%Z); ((1,0)%Z, map F [11;12;13]%Z); ((1,2)%Z, map F [17;18;19]%Z)].
Proof. vm_compute. reflexivity. Qed.

(* ---------- region/test_function.py, test_cluster_function.py ---------- *)

Definition all_points (x y : nat) : list point :=
  flat_map (fun i => map (fun j => (Z.of_nat i, Z.of_nat j)) (seq 0 y)) (seq 0 x).
Definition squares (z : Z) : res Z := Ok (z * z)%Z.
(** test_function.py:22-46, 91-110 *)
Example square_function :
  let values f := bind (s_apply_scalar 0%Z f (SPlain (mk2 3 5 (zrange 0 15)))) (fun r => mapM (value_at r) [(0,0); (0,2); (2,4)]%Z) in
  values (fregion_of_array (mk2 3 5 (repeat squares 15))) = Ok [0;4;196]%Z /\ values (fregion_same squares 3 5) = Ok [0;4;196]%Z.
Proof. vm_compute. repeat split; reflexivity. Qed.

(** test_function.py:48-83, 118-163, 171-210 *)
Definition means_region : stregion fnum :=
  TPlain (mk3 5 2 3 (map F [1;3;1;5;11;0; 2;3;1;6;9;0; 3;4;1;7;8;0; 4;5;1;8;7;0; 5;5;1;9;5;0]%Z)).
Definition means : fregion (list fnum) fnum := fregion_of_array (mk2 2 3 (repeat (fun s => Ok (fmean s)) 6)).
Definition sum_and_mean (s : list fnum) : res (list fnum) := Ok [fsum s; fmean s].
Example mean_function :
  rmap (map norm) (bind (t_apply_scalar (F 0) means means_region) (fun r => mapM (value_at r) (all_points 2 3)))
  = Ok (map F [3;4;1;7;8;0]%Z).
Proof. vm_compute. reflexivity. Qed.
Example sum_and_mean_function :
  let series f := rmap (map (map norm)) (bind (t_apply_series (F 0) f means_region 2) (fun r => mapM (series_at r) (all_points 2 3))) in
  let expected := Ok (map (map F) [[15;3]; [20;4]; [5;1]; [35;7]; [40;8]; [0;0]]%Z) in
  series (fregion_of_array (mk2 2 3 (repeat sum_and_mean 6))) = expected /\ series (fregion_same sum_and_mean 2 3) = expected.
Proof. vm_compute. repeat split; reflexivity. Qed.

(** test_cluster_function.py:16-55 *)
Example apply_scalar_to_cluster :
  let c := bind (cluster_of [2;0;1;2;0;2]%Z stub3 2) (t_apply_scalar (F 0) means) in
  rmap (fun r => match r with SCluster _ _ i => Some i | _ => None end) c = Ok (Some 2%Z) /\
  rmap (map norm) (bind c (fun r => mapM (value_at r) [(0,0); (1,0); (1,2)]%Z)) = Ok (map F [2;12;18]%Z) /\
  rmap (fun l => norm (fsum (map snd l))) (bind c s_items) = Ok (F 32) /\
  bind c (fun r => value_at r (0,1)%Z) = Raise ValueError.
Proof. vm_compute. repeat split; reflexivity. Qed.
(** test_cluster_function.py:57-91 *)
Example apply_series_to_cluster :
  let c := bind (cluster_of [2;0;1;2;0;2]%Z stub3 2)
             (fun r => t_apply_series (F 0) (fregion_of_array (mk2 2 3 (repeat (fun s => Ok (rev s)) 6))) r 3) in
  rmap (fun r => match r with TCluster _ _ i => Some i | _ => None end) c = Ok (Some 2%Z) /\
  bind c (fun r => mapM (series_at r) [(0,0); (1,0); (1,2)]%Z) = Ok (map (map F) [[3;2;1]; [13;12;11]; [19;18;17]]%Z) /\
  bind c (fun r => series_at r (0,1)%Z) = Raise ValueError.
Proof. vm_compute. repeat split; reflexivity. Qed.

(* ---------- region/test_mask.py ---------- *)

(** stub_mask.py:35-91, in units of 1e-8 *)
Definition u0 : list Z := [0; 30769328; 40253355; 43226533; 52156374; 51702938; 53440908; 58319551; 61056343; 48481703; 40998361; 40611098;
  43777396; 45104678; 52606050; 51337058; 54337398; 62787528; 100000000; 62159693]%Z.
Definition u1 : list Z := map (fun z => 100000000 - z)%Z u0.
Definition D8 (z : Z) : fnum := Fin (z # 100000000).
Definition mask_np : arr3 fnum := mk3 2 4 5 (map D8 (u0 ++ u1)).
Definition membership_np : arr2 fnum := mk2 20 2 (flat_map (fun '(a, b) => [D8 a; D8 b]) (combine u0 u1)).
Definition mask (i : Z) (threshold : Q) : res fmask := mk_fmask mask_np i (Fin threshold).
Definition member (i : Z) (threshold : Q) (pt : point) : res bool := bind (mask i threshold) (fun m => fmask_is_member m (Some pt)).
Definition members (m : res fmask) : res nat := bind m (fun m => rmap (@length point) (snd (fmask_for m 0))).

(** test_mask.py:22-51 *)
Example mask_constructor :
  mask 1 (1 # 2) = Ok (FMask mask_np 1 (Fin (1 # 2))) /\ mask 2 0 = Raise AssertionError /\ mask 1 (11 # 10) = Raise AssertionError.
Proof. vm_compute. repeat split; reflexivity. Qed.
(** test_mask.py:53-129 *)
Example mask_is_member :
  member 1 (1 # 2) (0,0)%Z = Ok true /\ member 0 (1 # 2) (0,0)%Z = Ok false /\ member 1 0 (0,1)%Z = Ok true /\
  member 1 0 (3,4)%Z = Ok false /\ member 1 (5 # 100) (0,4)%Z = Ok true /\ member 1 (3 # 100) (0,4)%Z = Ok false.
Proof. vm_compute. repeat split; reflexivity. Qed.
(** test_mask.py:131-154, 183-202 *)
Example mask_iterator : members (mask 1 0) = Ok 9 /\ members (mask 1 (1 # 10)) = Ok 15 /\ members (mask 1 0) = Ok 9.
Proof. vm_compute. repeat split; reflexivity. Qed.
(** test_mask.py:156-181; the second loop starts from the counter that the first one leaves *)
Example mask_from_uij :
  let m := from_uij_and_region membership_np 4 5 1 (Fin (1 # 10)) in
  bind m (fun m => mapM (fun pt => fmask_is_member m (Some pt)) [(0,0); (0,4); (0,1); (3,3); (3,4)]%Z) = Ok [true; true; true; false; false] /\
  members m = Ok 15 /\
  bind m (fun m => rmap (@length point) (snd (fmask_for m (fst (fmask_for m 0))))) = Ok 15.
Proof. vm_compute. repeat split; reflexivity. Qed.

(* ---------- region/test_metadata.py ---------- *)

Definition sp_small (start stop spd : Z) (scaled : bool) : rmeta := RMeta "sp_small" (Rect 40 50 50 60) start stop spd scaled "raw".
(** test_metadata.py:19-39, 53-57, 89-98 *)
Example metadata_names :
  dataset_filename (sp_small 2015 2015 1 true) = "raw/sp_small_2015_2015_1spd_scaled.npy"%string /\
  dataset_filename (sp_small 2015 2015 4 true) = "raw/sp_small_2015_2015_4spd_scaled.npy"%string /\
  dataset_filename (sp_small 2015 2015 1 false) = "raw/sp_small_2015_2015_1spd.npy"%string /\
  dataset_filename (sp_small 2014 2015 1 true) = "raw/sp_small_2014_2015_1spd_scaled.npy"%string /\
  distances_filename (sp_small 2015 2015 1 true) = "raw/distances_sp_small_2015_2015_1spd_scaled.npy"%string /\
  pickle_filename (sp_small 2015 2015 1 true) "pickle" = "pickle/sp_small_2015_2015_1spd_scaled/sp_small_2015_2015_1spd_scaled.pickle"%string /\
  region_output_dir (sp_small 2015 2015 1 true) "outputs" = "outputs/sp_small_2015_2015_1spd_scaled"%string.
Proof. vm_compute. repeat split; reflexivity. Qed.
(** test_metadata.py:59-87 *)
Example index_to_absolute_point_tests :
  map (index_to_absolute_point (Rect 40 50 50 60)) [0;1;85]%Z = [Ok (40,50); Ok (40,51); Ok (48,55)]%Z.
Proof. vm_compute. reflexivity. Qed.

(* ---------- region/test_partition.py ---------- *)

(** stub_partition.py:4-37, stub_region.py:8-15, 44-46 *)
Definition stub_labels : arr2 Z := mk2 4 5 [0;1;1;0;0; 1;1;2;2;2; 0;2;1;1;2; 0;0;1;1;2]%Z.
Definition stub_partition : res crisp := mk_crisp stub_labels 3.
Definition stub2 : sregion Z := SPlain (mk2 4 5 (map (fun z => z * z)%Z (zrange 0 20))).

(** test_partition.py:20-57 *)
Example membership_of_points_tests :
  let f pts := bind stub_partition (fun p => membership_of_points p pts) in
  f [] = Ok [] /\ f [(0,0)]%Z = Ok [0]%Z /\ f [(0,0); (2,4); (1,1)]%Z = Ok [0;2;1]%Z.
Proof. vm_compute. repeat split; reflexivity. Qed.
(** test_partition.py:59-87 *)
Example create_cluster_tests :
  let len_t := bind stub_partition (fun p => rmap (fun r => match r with TCluster _ p i => Some (i, cluster_len p i) | _ => None end)
                                               (create_spt_cluster p (TPlain (mk3 2 4 5 (zrange 0 40))) 0)) in
  let len_s := bind stub_partition (fun p => rmap (fun r => match r with SCluster _ p i => Some (i, cluster_len p i) | _ => None end)
                                               (create_spatial_cluster p stub2 0)) in
  len_t = Ok (Some (0%Z, 6)) /\ len_s = Ok (Some (0%Z, 6)).
Proof. vm_compute. repeat split; reflexivity. Qed.
(** test_partition.py:89-106 *)
Example merge_clusters_test :
  bind stub_partition (fun p => bind (create_all_spatial_clusters p stub2) (fun cs => bind (merge_clusters_2d 0%Z p cs)
    (fun r => mapM (value_at r) (all_points 4 5)))) = Ok (map (fun z => z * z)%Z (zrange 0 20)).
Proof. vm_compute. reflexivity. Qed.
(** test_partition.py:108-148 *)
Example merge_with_representatives_test :
  bind stub_partition (fun p => bind (create_all_spatial_clusters p stub2) (fun cs =>
    bind (merge_with_representatives_2d 0%Z p cs [(0,3); (1,0); (1,3)]%Z) (fun r => mapM (value_at r) (all_points 4 5))))
  = Ok [9;25;25;9;9; 25;25;64;64;64; 9;64;25;25;64; 9;9;25;25;64]%Z.
Proof. vm_compute. reflexivity. Qed.
(** test_partition.py:150-199: list(set()) has no order of its own, so the medoids are compared as sets *)
Example medoids_of_intersecting_clusters :
  let f g := bind stub_partition (fun p => rmap (fun l => (length l, map (fun m => existsb (fun m' => (fst m =? fst m') && (snd m =? snd m'))%Z l)
                                                                       [(0,3); (1,0); (1,3)]%Z))
               (find_medoids_of_clusters_intersecting_with p (Some [(0,3); (1,0); (1,3)]%Z) g)) in
  f (Rect 0 2 0 2) = Ok (2, [true; true; false]) /\ f (Rect 2 4 1 3) = Ok (3, [true; true; true]) /\
  f (Rect 2 4 2 4) = Ok (1, [false; true; false]).
Proof. vm_compute. repeat split; reflexivity. Qed.

(* ---------- region/test_scaling.py ---------- *)

Definition scaled3 : res (stregion fnum) := scale_apply_to 2 3 stub3 3.
Definition series_of (r : res (stregion fnum)) (pts : list point) : res (list (list fnum)) :=
  rmap (map (map norm)) (bind r (fun r => mapM (series_at r) pts)).
(** test_scaling.py:18-51 *)
Example scaling_test :
  series_of scaled3 (all_points 2 3) = Ok (repeat [F 0; Fin (1 # 2); F 1] 6) /\
  bind scaled3 (fun r => match r with TScaled _ lo hi => Ok (rmap (map norm) (mapM (value_at lo) (all_points 2 3)), rmap (map norm) (mapM (value_at hi) (all_points 2 3)))
                         | _ => Raise TypeError end)
  = Ok (Ok (map F [1;4;7;11;14;17]%Z), Ok (map F [3;6;9;13;16;19]%Z)).
Proof. vm_compute. repeat split; reflexivity. Qed.
(** test_scaling.py:53-76 *)
Example scaling_and_descaling : series_of (bind scaled3 descale) (all_points 2 3) = series_of (Ok stub3) (all_points 2 3).
Proof. vm_compute. reflexivity. Qed.
(** test_scaling.py:81-140 *)
Example scaling_then_clustering :
  let c := bind scaled3 (fun r => cluster_of [1;0;0;1;0;1]%Z r 1) in
  rmap has_scaling c = Ok true /\
  series_of (bind c descale) [(0,0); (1,0); (1,2)]%Z = series_of (Ok stub3) [(0,0); (1,0); (1,2)]%Z /\
  map (fun pt => bind (bind c descale) (fun r => series_at r pt)) [(0,1); (0,2); (1,1)]%Z = [Raise ValueError; Raise ValueError; Raise ValueError].
Proof. vm_compute. repeat split; reflexivity. Qed.
