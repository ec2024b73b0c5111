(** What is expected of array pathnames, in terms of texts. *)
From Coq Require Import Ascii String.
From Verif Require Import Common FileNameModel.

(** A name of a phenomenon, property set or property: something without slashes *)
Definition name_ok (s : text) : Prop := ~ In slash s.

(** The pathname that is documented: <dataset_pathname>/<phenomenon_name>/<property_set_name>/<property_name> *)
Definition pathname3 (phenomenon property_set property : text) : text := phenomenon ++ [slash] ++ property_set ++ [slash] ++ property.
Definition pathname (dataset phenomenon property_set property : text) : text := dataset ++ [slash] ++ pathname3 phenomenon property_set property.

(** Number of slashes *)
Definition nr_slashes (s : text) : nat := count_occ ascii_dec s slash.

(** A series of slashes is equivalent with a single one *)
Fixpoint squeeze (s : text) : text :=
  match s with
  | a :: ((b :: _) as r) => if Ascii.eqb a slash && Ascii.eqb b slash then squeeze r else a :: squeeze r
  | _ => s
  end.
(** There is no such series *)
Definition single_slashes (s : text) : Prop := forall a b, s <> a ++ [slash; slash] ++ b.
