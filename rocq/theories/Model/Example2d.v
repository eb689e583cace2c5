(** The program spta/kmedoids/example2d.py: it makes a region from some functions, clusters it for several numbers of clusters and
    draws the best clustering.

    Logging is left out.  The random numbers are as in Model/Examples.v. *)
From Coq Require Import String QArith.
From Verif Require Import Base.Py Base.Arr Base.Float Model.Region Model.Distance Model.KMedoids Model.Algorithms Model.Plots Model.Synthetic Model.Examples.
Local Close Scope Q_scope.
Local Open Scope nat_scope.
Local Notation length := List.length.

(** silhouette.py:295-314 silhouette_default_metadata(k_values, seed_values, kmedoids_mode='lite') *)
Definition default_silhouette (ks seeds : list Z) : smeta := SMeta ks seeds Lite None 1000 (Fin (1 # 1000)) true true (Some default_save_graphs).

Section Program.
Context {color : Type} (cmap : fnum -> color) (is_black : color -> bool).
Context (choice : Z -> nat -> Z -> res (list Z)) (score : arr2 fnum -> list Z -> res fnum) (samples : arr2 fnum -> list Z -> res (list fnum)).
Context (pad : nat -> nat -> nat) (noise : nat -> nat -> fnum -> fnum -> fnum) (measure : list fnum -> list fnum -> fnum) (junk : fnum).

(** plot.py:67-81 the colours of a region of float labels without NaN; np.max of nothing raises ValueError *)
Definition mask_colors (mask : arr2 fnum) : res (arr2 color) :=
  match a2d mask with
  | [] => Raise ValueError
  | v :: vs =>
      let k := fadd (fold_left fmax2 vs v) (Fin 1) in
      Ok (mk2 (a2x mask) (a2y mask) (map (fun u => cmap (fdiv u k)) (a2d mask)))
  end.

(** what the program leaves: the picture of the mask, the best run with its silhouette average, the pictures written, and the series
    as they are drawn at the end *)
Record outcome := Outcome { o_mask : arr2 color; o_best : sbest; o_files : list string; o_drawn : list (list fnum * string) }.

(** example2d.py:64-104 main, for any region, length, functions, numbers of clusters and seeds.  If no average is above -1, there are
    no labels, and the set of None raises TypeError (plot.py:35). *)
Definition cluster_region (x_len y_len series_len : nat) (options : list profile) (ks seeds : list Z) : res outcome :=
  '(spt_region, mask_region) <- alternating_functions_2d pad noise junk x_len y_len series_len options ;;
  picture <- mask_colors mask_region ;;
  series_group <- as_list (TPlain spt_region) ;;
  _ <- plot_series_group series_group series_len ;;
  distance_matrix <- matrix_of_region measure junk (TPlain spt_region) ;;
  '(best, files) <- do_silhouette_analysis cmap is_black choice score samples series_group (Some (arr2_of_mat distance_matrix))
                      (fun _ => Raise AssertionError) (default_silhouette ks seeds) x_len y_len ;;
  match b_labels best with
  | None => Raise TypeError
  | Some labels =>
      drawn <- plot_series_group_by_color series_group series_len (map Z.of_nat labels) ;;
      Ok (Outcome picture best files drawn)
  end.

Definition example2d (sin2pi pdf : Q -> fnum) : res outcome := cluster_region 8 8 200 (function_options sin2pi pdf) [2; 3; 4]%Z [1]%Z.
End Program.
