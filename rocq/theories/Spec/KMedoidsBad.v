(** What a clustering around medoids is, for the first k-medoids algorithm. *)
From Verif Require Import Base.Py Base.Float Model.KMedoids.

(** sample number [s] as a medoid *)
Definition sample_medoid (X : dataset) (s : nat) : medoid := (Z.of_nat s, nth s X []).
Definition are_samples (X : dataset) (ms : list medoid) : Prop := forall md, In md ms -> exists s, s < length X /\ md = sample_medoid X s.

(** the combined distance of all the samples to a series *)
Definition total_distance (measure : list fnum -> list fnum -> fnum) (combine_d : list (list fnum) -> fnum) (X : dataset) (series : list fnum) : fnum :=
  combine_d (map (fun x => [measure x series]) X).

(** [label] is the first of the medoids at the least distance from x *)
Definition nearest_of (measure : list fnum -> list fnum -> fnum) (ms : list medoid) (x : list fnum) (label : nat) : Prop :=
  exists md, nth_error ms label = Some md /\
    forall j md', nth_error ms j = Some md' ->
      fle (measure x (snd md)) (measure x (snd md')) = true /\ (j < label -> flt (measure x (snd md)) (measure x (snd md')) = true).

(** no missing distance between the samples *)
Definition measured (measure : list fnum -> list fnum -> fnum) (X : dataset) : Prop :=
  forall s t, s < length X -> t < length X -> is_nan (measure (nth s X []) (nth t X [])) = false.

(** the measure tells different series apart *)
Definition separates (measure : list fnum -> list fnum -> fnum) (X : dataset) : Prop :=
  forall s t, s < length X -> t < length X ->
    fle (measure (nth s X []) (nth s X [])) (Fin 0) = true /\ (nth s X [] <> nth t X [] -> flt (Fin 0) (measure (nth s X []) (nth t X [])) = true).
