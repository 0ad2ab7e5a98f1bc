(** Model of _getCategories (cal.py 875-890): the one place where the code depends
    on how the icalendar library fails. *)
From Verif Require Import Base PyDate Recurrent CalTime Event ICal.

(** _getCategories, cal.py 875-890.  [inline] is what e.get_inline('CATEGORIES')
    does and [decoded] what e.decoded('CATEGORIES', None) would do: the library is
    not modelled.  [Set] is a list without repetition. *)
Definition get_categories (inline : res (list string)) (decoded : res (option (list string))) : res (list string) :=
  match inline with
  | Ok l => Ok (nodup string_dec l)
  | Raise KeyError => Ok []
  | Raise AttributeError =>
      let* o := decoded in
      match o with
      | None => Ok []
      | Some l => Ok (nodup string_dec l)
      end
  | Raise x => Raise x
  | OutOfFuel => OutOfFuel
  end.

(** the component with these categories, cal.py 784 *)
Definition with_categories (v : vevent) (l : list string) : vevent :=
  mkV (v_uid v) (v_dtstart v) (v_dtend v) (v_duration v) (v_summary v) (v_description v) (v_location v) (v_status v)
      (v_organizer v) (v_attendees v) l (v_transp v) (v_class v) (v_attach v) (v_rrule v).

(** _importEventSpecification, cal.py 748-794, with the categories read where the
    code reads them: after times and organizer and before the rule.  Times and
    organizer are read again by [import_spec], which has no effect. *)
Definition import_spec_raw (tz : Z -> Z) (known : string -> bool) (default : res attendee) (v : vevent)
    (inline : res (list string)) (decoded : res (option (list string))) : res spec :=
  let* _ := dtstart_duration tz v in
  let* _ := match match v_organizer v with Some i => if known i then Some i else None | None => None end with
            | Some i => Ok (Some i)
            | None => default
            end in
  let* l := get_categories inline decoded in
  import_spec tz known default (with_categories v l).
