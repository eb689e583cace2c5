(** The examples of the k-medoids package: spta/kmedoids/example1d.py and example2d.py, which make series from three functions
    (spta/dataset/synthetic_temporal.py) and cluster them.

    The c-th call of delayed_function_with_noise draws [pad c n] from np.random.randint(0, n), and [noise c j v s] is the j-th number
    that it draws with np.random.normal(v, s).  Logging is left out. *)
From Coq Require Import String QArith.
From Verif Require Import Base.Py Base.Arr Base.Float Model.Region Model.Distance Model.KMedoids Model.Algorithms Model.Plots Model.Synthetic.
Local Close Scope Q_scope.
Local Open Scope nat_scope.
Local Notation length := List.length.

(** a function of a place and of the number of places *)
Definition profile := nat -> nat -> fnum.

(** np.sign *)
Definition fsign (a : fnum) : fnum := if is_nan a then NaN else if flt a (Fin 0) then Fin (-1) else if flt (Fin 0) a then Fin 1 else Fin 0.

(** synthetic_temporal.py:50-65; [sin2pi q] is np.sin(2 * np.pi * q) and [pdf] the density of the standard normal distribution *)
Definition sine_function (sin2pi : Q -> fnum) : profile := fun j n => sin2pi (inject_Z (Z.of_nat j) / inject_Z (Z.of_nat n))%Q.
Definition square_function (sin2pi : Q -> fnum) : profile := fun j n => fsign (sine_function sin2pi j n).
Definition gaussian_function (pdf : Q -> fnum) : profile := fun j n => pdf (3 * (2 * inject_Z (Z.of_nat j) / inject_Z (Z.of_nat n) - 1))%Q.

(** plot.py:15-26 plot_series_group: matplotlib needs as many values as places *)
Definition plot_series_group (group : list (list fnum)) (series_len : nat) : res unit :=
  if forallb (fun s => length s =? series_len) group then Ok tt else Raise ValueError.

Section Examples.
Context (pad : nat -> nat -> nat) (noise : nat -> nat -> fnum -> fnum -> fnum).

(** the c-th call of delayed_function_with_noise (synthetic_temporal.py:12-48) *)
Definition delayed (c : nat) (f : profile) (series_len : nat) : res (list fnum) := delayed_function_with_noise (fun _ => noise c) f (pad c) series_len.

(** function_options[index % len(function_options)] *)
Definition option_at (options : list profile) (index : nat) : res profile :=
  if length options =? 0 then Raise ZeroDivisionError else getitem options (Z.of_nat (index mod length options)).

(** example1d.py:14-36 alternating_functions_1d *)
Definition alternating_functions_1d (series_n series_len : nat) (options : list profile) : res (list (list fnum)) :=
  mapM (fun i => f <- option_at options i ;; delayed i f series_len) (seq 0 series_n).

(** example2d.py:19-61 alternating_functions_2d for a region of x_len by y_len points; [junk] is what np.empty leaves.  The result is the
    spatio-temporal region and the mask. *)
Definition alternating_functions_2d (junk : fnum) (x_len y_len series_len : nat) (options : list profile) : res (arr3 fnum * arr2 fnum) :=
  foldM (fun '(spt, mask) pt =>
           let i := Z.to_nat (fst pt) in let j := Z.to_nat (snd pt) in
           f <- option_at options (i * j) ;;
           series <- delayed (i * y_len + j) f series_len ;;
           spt <- setseries3 spt (fst pt) (snd pt) series ;;
           mask <- set2 mask (fst pt) (snd pt) (fof_nat (i * j mod length options)) ;;
           Ok (spt, mask))
        (list_of_2d_points (Z.of_nat x_len) (Z.of_nat y_len)) (full3 series_len x_len y_len junk, full2 x_len y_len junk).

(** example1d.py:39-66 main, for any number of series, length and functions: the medoids, the labels and the series as they are drawn.
    [choice] is numpy.random.choice without replacement after seed(1). *)
Definition cluster_series (measure : list fnum -> list fnum -> fnum) (junk : fnum) (choice : nat -> Z -> res (list Z)) (series_n series_len : nat) (options : list profile)
  : res (list Z * list nat * list (list fnum * string)) :=
  group <- alternating_functions_1d series_n series_len options ;;
  _ <- plot_series_group group series_len ;;
  distance_matrix <- matrix_of_series_array measure junk group ;;
  result <- run_kmedoids choice group (Z.of_nat (length options)) (DMatrix (arr2_of_mat distance_matrix)) None Lite 1000 (Fin (1 # 1000)) true ;;
  drawn <- plot_series_group_by_color group series_len (map Z.of_nat (c_labels (r_cost result))) ;;
  Ok (r_medoids result, c_labels (r_cost result), drawn).
(** example1d.py:42-45 *)
Definition function_options (sin2pi pdf : Q -> fnum) : list profile := [sine_function sin2pi; square_function sin2pi; gaussian_function pdf].
Definition example1d (sin2pi pdf : Q -> fnum) (measure : list fnum -> list fnum -> fnum) (junk : fnum) (choice : nat -> Z -> res (list Z)) :=
  cluster_series measure junk choice 18 200 (function_options sin2pi pdf).
End Examples.
