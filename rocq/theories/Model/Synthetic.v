(** Synthetic series: spta/dataset/synthetic_temporal.py and spta/classifier/synthetic.py.

    [rnd c n] is the place that the c-th call of random.choice picks among n elements.  [normal c j v s] is the j-th number
    of the c-th array drawn with np.random.normal, with mean v and standard deviation s. *)
From Coq Require Import String QArith.
From Verif Require Import Base.Py Base.Float Base.Str Model.Region Model.Results.
Local Close Scope Q_scope.
Local Open Scope nat_scope.
Local Open Scope string_scope.
Local Notation length := List.length.

Section Random.
Context (rnd : nat -> nat -> nat) (normal : nat -> nat -> fnum -> fnum -> fnum).

(** random.choice: IndexError on an empty sequence *)
Definition choose {A} (call : nat) (l : list A) : res A :=
  match l with [] => Raise IndexError | _ => getitem l (Z.of_nat (rnd call (length l))) end.

(** np.random.normal(means, scale): ValueError for a negative scale *)
Definition normals (call : nat) (means : list fnum) (scale : fnum) : res (list fnum) :=
  if flt scale (Fin 0) then Raise ValueError else Ok (map (fun '(j, v) => normal call j v scale) (enumerate means)).

(** synthetic_temporal.py:73-74 np.arange(b_min, b_max, (b_max - b_min) / 12): twelve values in exact arithmetic; a step of 0
    raises ZeroDivisionError *)
Definition b_choices (b_min b_max : Q) : res (list Q) :=
  if Qeq_bool b_min b_max then Raise ZeroDivisionError
  else Ok (map (fun i => b_min + inject_Z (Z.of_nat i) * ((b_max - b_min) / 12))%Q (seq 0 12)).

(** synthetic_temporal.py:66-85 synthetic_temperature; [call] numbers the call of random.choice, [noise_call] that of normal *)
Definition synthetic_temperature (call noise_call : nat) (series_len : nat) (a : fnum) (b_min b_max : Q) (noise : fnum) : res (list fnum) :=
  bs <- b_choices b_min b_max ;;
  b <- choose call bs ;;
  normals noise_call (map (fun x => fadd (fmul (fof_nat x) a) (Fin b)) (seq 0 series_len)) noise.

(** one entry of the output, synthetic.py:50-57 *)
Record entry := Entry { en_k : Z; en_seed : Z; en_cluster : Z; en_medoid : point; en_series : list fnum }.

(** synthetic.py:40-46 slope *)
Definition slope (k seed cluster_index : Z) (a_weight : fnum) : fnum :=
  let pos_or_neg := ((seed mod 2) * 2 - 1)%Z in
  fmul (Fin (inject_Z ((k - cluster_index) * pos_or_neg))) a_weight.

(** synthetic.py:20-25 the medoids *)
Definition random_medoids (num_medoids x_len y_len : nat) : res (list point) :=
  mapM (fun j => x <- choose (2 * j) (zrange 0 (Z.of_nat x_len)) ;;
                 y <- choose (2 * j + 1) (zrange 0 (Z.of_nat y_len)) ;;
                 Ok (x, y)) (seq 0 num_medoids).

(** synthetic.py:8-62 generate_synthetic_series: five calls of random.choice per entry after the two per medoid *)
Definition generate_synthetic_series (ks seeds : list Z) (num_medoids num_entries series_len x_len y_len : nat)
           (a_weight : fnum) (b_min b_max : Q) (noise : fnum) : res (list entry) :=
  medoids <- random_medoids num_medoids x_len y_len ;;
  mapM (fun e =>
          let call := 2 * num_medoids + 5 * e in
          k <- choose call ks ;;
          seed <- choose (call + 1) seeds ;;
          cluster_index <- choose (call + 2) (zrange 0 k) ;;
          medoid <- choose (call + 3) medoids ;;
          series <- synthetic_temperature (call + 4) e series_len (slope k seed cluster_index a_weight) b_min b_max noise ;;
          Ok (Entry k seed cluster_index medoid series)) (seq 0 num_entries).

(** synthetic.py:65-97 generate_synthetic_csv: header and rows; clustering_type and clustering_mode have the default values
    'kmedoids' and 'lite' *)
Definition generate_synthetic_csv (ks seeds : list Z) (num_medoids num_entries series_len x_len y_len : nat)
           (region_id clustering_type clustering_mode : string) (a_weight : fnum) (b_min b_max : Q) (noise : fnum)
  : res (list string * list (list field)) :=
  entries <- generate_synthetic_series ks seeds num_medoids num_entries series_len x_len y_len a_weight b_min b_max noise ;;
  Ok ((["region_id"; "type"; "k"; "seed"; "mode"; "cluster_index"; "medoid_x"; "medoid_y"] ++
       map (fun i => ("s" ++ str_int (Z.of_nat i))%string) (seq 0 series_len))%list,
      map (fun en => ([FStr region_id; FStr clustering_type; FInt (en_k en); FInt (en_seed en); FStr clustering_mode; FInt (en_cluster en);
                       FInt (fst (en_medoid en)); FInt (snd (en_medoid en))] ++ map (FNum 3) (en_series en))%list) entries).

(** synthetic_temporal.py:12-48 delayed_function_with_noise of a profile (a function of a place and of the number of places);
    [pad] is what np.random.randint(0, padding_length) draws: ValueError if there is nothing to draw from.  The rounding of
    0.15 * series_len is left out *)
Definition padding_length (series_len : nat) : nat := Nat.min 30 (series_len * 15 / 100).
Definition delayed_function_with_noise (profile : nat -> nat -> fnum) (pad : nat -> nat) (series_len : nat) : res (list fnum) :=
  let padding := padding_length series_len in
  let points := series_len - padding in
  let main_profile := map (fun j => profile j points) (seq 0 points) in
  if (padding =? 0)%nat then Raise ValueError
  else
    let left := pad padding in
    normals 0 (repeat (Fin 0) left ++ main_profile ++ repeat (Fin 0) (padding - left))%list (Fin (1 # 50)).
End Random.
