(** charstr_idna_encode with the functions of the generated files. *)
From Verif Require Import Base NormModel CategoryModel CategoryData IdnaTabModel IdnaModel PunyModel.

(** The function of the generated file that unicode/categorize.py writes from
    UnicodeData.txt: CategoryModel.v. *)
Definition charstr_unicode_category (codepoint : Z) : res category := unicode_category category_data codepoint.

Definition idna_library : library := {|
  is_valid := charstr_idna_status_is_valid;
  is_deviation := charstr_idna_status_is_deviation;
  is_ignored := charstr_idna_status_is_ignored;
  is_mapped := charstr_idna_status_is_mapped;
  mapping := charstr_idna_mapping;
  unicode_category_of := charstr_unicode_category |}.

(** src/charstr_puny.c:268-289 charstr_idna_encode: the returned block, [None] for NULL.
    [junk] is the content of uninitialized arrays and fresh allocations, [r] and [h] of the
    uninitialized local variables of charstr_unicode_recompose. *)
Definition charstr_idna_encode (junk : nat -> Z) (r : recomposer) (h : hangul_recomposer) (errno : Z) (hostname : list Z) : res (option (list Z)) :=
  idna_encode idna_library junk r h errno hostname.
