(** What an interrupted restore may leave, place by place. *)

From Verif Require Import Base OMap Formats Hashing Pack Meta Forest FsTree FsSpec Browse BrowseSpec Restore RestoreSpec.

(** Both directories or both files, so that one becomes the other without being removed. *)
Definition same_kind (t t' : thing) : Prop :=
  match t, t' with TFile _, TFile _ | TDir, TDir => True | _, _ => False end.

(** What was there before: as it was, or a directory with another time, or with the metadata of something saved, which
    for a saved file is only so if the contents are as saved. *)
Definition untouched (before saved : option thing_meta) (got : thing_meta) : Prop :=
  exists m, before = Some (got.1, m) /\
    (got.2 = m \/ (got.1 = TDir /\ (saved = None -> modes got.2 = modes m)) \/
     exists s, saved = Some s /\ forall c, s.1 = TFile c -> got.1 = TFile c).

(** What was saved; of a file perhaps only the beginning, and its size tells. *)
Definition written (saved got : thing_meta) : Prop :=
  match saved.1 with
  | TFile c0 => exists c, got.1 = TFile c /\ c `prefix_of` c0 /\ meta_size got.2 = Some (N.of_nat (length c))
  | TOther => False
  | t => got.1 = t
  end.

(** The one, the other, or nothing, but then only where there was nothing or something had to go. *)
Definition on_the_way (args : restore_args) (before saved got : option thing_meta) : Prop :=
  match got with
  | None => (before = None \/ r_delete args = true \/ saved <> None) /\
      forall t m t' m', before = Some (t, m) -> saved = Some (t', m') -> ~ same_kind t t'
  | Some g => is_Some (modes g.2) /\ (untouched before saved g \/ exists s, saved = Some s /\ written s g)
  end.
