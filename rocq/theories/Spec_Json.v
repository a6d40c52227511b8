(** Specification vocabulary for the JSON text of a log: a reader of JSON texts (RFC 8259) and what a document
    says about a log. *)

From Coq Require Import ZArith Ascii String List Bool.
From Verif Require Import Base M_Bytes M_TecZone M_TecFile Spec_Tec Spec_Plt Spec_Aux Spec_Xml.
Import ListNotations.
Open Scope string_scope.
Open Scope Z_scope.

(** ** Values *)

(** [JNum m e] is the number m * 10^e.  An object keeps its members in the order of the text. *)
Inductive json :=
| JNull | JBool (b : bool) | JNum (m e : Z) | JStr (s : string)
| JArr (l : list json) | JObj (l : list (string * json)).

(** ** The reader *)

(** White space. *)
Definition jws (n : Z) : bool := (n =? 32) || (n =? 9) || (n =? 10) || (n =? 13).
Fixpoint jskip (s : string) : string :=
  match s with
  | String c r => if jws (b2z c) then jskip r else s
  | "" => ""
  end.

(** The digits at the start of a text: their value after [v], how many they are after [k], and the rest. *)
Fixpoint jdigits (s : string) (v : Z) (k : nat) : Z * nat * string :=
  match s with
  | String c r => if (48 <=? b2z c) && (b2z c <=? 57) then jdigits r (10 * v + (b2z c - 48)) (S k) else (v, k, s)
  | "" => (v, k, "")
  end.

(** [ "-" ] digits [ "." digits ] [ "e" [ sign ] digits ], no superfluous zero in front. *)
Definition jfrac (v : Z) (s : string) : option (Z * nat * string) :=
  match s with
  | String c r =>
      if b2z c =? 46 then
        let '(w, j, q) := jdigits r v 0 in if (j =? 0)%nat then None else Some (w, j, q)
      else Some (v, O, s)
  | "" => Some (v, O, "")
  end.
Definition jexp (s : string) : option (Z * string) :=
  match s with
  | String c r =>
      if (b2z c =? 101) || (b2z c =? 69) then
        let '(neg, r) :=
          match r with
          | String d r' => if b2z d =? 45 then (true, r') else if b2z d =? 43 then (false, r') else (false, r)
          | "" => (false, r)
          end in
        let '(x, i, q) := jdigits r 0 0 in
        if (i =? 0)%nat then None else Some (if neg : bool then - x else x, q)
      else Some (0, s)
  | "" => Some (0, "")
  end.
Definition jnumber (s : string) : option (json * string) :=
  let '(neg, s) :=
    match s with
    | String c r => if b2z c =? 45 then (true, r) else (false, s)
    | "" => (false, s)
    end in
  let '(v, k, s) := jdigits s 0 0 in
  if (k =? 0)%nat || ((1 <? k)%nat && (v <? 10 ^ (Z.of_nat k - 1))) then None else
  match jfrac v s with
  | None => None
  | Some (w, j, s) =>
      match jexp s with
      | None => None
      | Some (x, s) => Some (JNum (if neg : bool then - w else w) (x - Z.of_nat j), s)
      end
  end.

(** A string after its opening quote.  Escapes with [\u] are not read; bytes above 127 are taken as they are. *)
Definition jescape (n : Z) : option ascii :=
  if (n =? 34) || (n =? 92) || (n =? 47) then Some (z2b n)
  else if n =? 98 then Some (z2b 8)
  else if n =? 102 then Some (z2b 12)
  else if n =? 110 then Some (z2b 10)
  else if n =? 114 then Some (z2b 13)
  else if n =? 116 then Some (z2b 9)
  else None.
Fixpoint jchars (s : string) : option (string * string) :=
  match s with
  | "" => None
  | String c r =>
      if b2z c =? 34 then Some ("", r)
      else if b2z c <? 32 then None
      else if b2z c =? 92 then
        match r with
        | String d r' =>
            match jescape (b2z d), jchars r' with
            | Some x, Some (t, q) => Some (String x t, q)
            | _, _ => None
            end
        | "" => None
        end
      else match jchars r with Some (t, q) => Some (String c t, q) | None => None end
  end.

(** What follows a word. *)
Fixpoint jword (w s : string) : option string :=
  match w, s with
  | "", _ => Some s
  | String a w', String c r => if b2z a =? b2z c then jword w' r else None
  | _, "" => None
  end.

(** A value, the elements of an array after "[" and the members of an object after "{"; [n]: a bound
    of the depth of the recursion. *)
Fixpoint jvalue (n : nat) (s : string) : option (json * string) :=
  match n with
  | O => None
  | S n =>
      match jskip s with
      | "" => None
      | String c r =>
          if b2z c =? 123 then
            match jskip r with
            | String d q =>
                if b2z d =? 125 then Some (JObj [], q)
                else match jmembers n r with Some (l, q) => Some (JObj l, q) | None => None end
            | "" => None
            end
          else if b2z c =? 91 then
            match jskip r with
            | String d q =>
                if b2z d =? 93 then Some (JArr [], q)
                else match jelements n r with Some (l, q) => Some (JArr l, q) | None => None end
            | "" => None
            end
          else if b2z c =? 34 then
            match jchars r with Some (t, q) => Some (JStr t, q) | None => None end
          else match jword "true" (String c r), jword "false" (String c r), jword "null" (String c r) with
          | Some q, _, _ => Some (JBool true, q)
          | _, Some q, _ => Some (JBool false, q)
          | _, _, Some q => Some (JNull, q)
          | None, None, None => jnumber (String c r)
          end
      end
  end
with jelements (n : nat) (s : string) : option (list json * string) :=
  match n with
  | O => None
  | S n =>
      match jvalue n s with
      | None => None
      | Some (v, r) =>
          match jskip r with
          | String c q =>
              if b2z c =? 44 then
                match jelements n q with Some (l, q) => Some (v :: l, q) | None => None end
              else if b2z c =? 93 then Some ([v], q)
              else None
          | "" => None
          end
      end
  end
with jmembers (n : nat) (s : string) : option (list (string * json) * string) :=
  match n with
  | O => None
  | S n =>
      match jskip s with
      | String c r =>
          if b2z c =? 34 then
            match jchars r with
            | None => None
            | Some (k, q) =>
                match jskip q with
                | String d q =>
                    if b2z d =? 58 then
                      match jvalue n q with
                      | None => None
                      | Some (v, r) =>
                          match jskip r with
                          | String c q =>
                              if b2z c =? 44 then
                                match jmembers n q with Some (l, q) => Some ((k, v) :: l, q) | None => None end
                              else if b2z c =? 125 then Some ([(k, v)], q)
                              else None
                          | "" => None
                          end
                      end
                    else None
                | "" => None
                end
            end
          else None
      | "" => None
      end
  end.

(** One value with white space around it. *)
Definition parse_json (s : string) : option json :=
  match jvalue (S (String.length s)) s with
  | Some (v, r) => match jskip r with "" => Some v | _ => None end
  | None => None
  end.

(** ** What a document says *)

Definition jint (z : Z) : json := JNum z 0.
Definition jint3 (v : v3) : json := JArr [jint (x0 v); jint (x1 v); jint (x2 v)].

(** The number [m * 10^e] differs from the [double] with bit pattern [b] by at most half a
    millionth of it. *)
Definition says_number (b : Z) (j : json) : Prop :=
  exists m e v, j = JNum m e /\ num64 b = Fin v /\
    2 * 10 ^ 6 * Z.abs (m * 10 ^ Z.max 0 e * 2 ^ 1074 - v * 10 ^ Z.max 0 (- e)) <= Z.abs v * 10 ^ Z.max 0 (- e).
(** A number of seconds with five decimals. *)
Definition says_seconds (b : Z) (j : json) : Prop :=
  exists m v, j = JNum m (-5) /\ num64 b = Fin v /\ 2 * Z.abs (m * 2 ^ 1074 - v * 10 ^ 5) <= 2 ^ 1074.

Definition says_aux (a : aux) : list (string * json) :=
  match a with [] => [] | _ => [("Auxiliary", JObj (map (fun p => (fst p, JStr (snd p))) a))] end.

Definition says_data (d : data_log) (j : json) : Prop :=
  exists a b, j = JObj [("type", jint (dl_type d)); ("size_i", jint (dl_size d)); ("file_pt", jint (dl_pt d)); ("min", a); ("max", b)] /\
    says_number (dl_min d) a /\ says_number (dl_max d) b.
Definition says_zone (g : zone_log) (j : json) : Prop :=
  let z := zl_zone g in let r := zl_real g in
  exists t ds, j = JObj (
    [("ZoneName", JStr (z_name z)); ("StrandId", jint (z_strand z))]
    ++ (if z_strand z =? -1 then [] else [("SolutionTime", t)])
    ++ [("Org_Dim", jint (r_dim r)); ("Real_Dim", jint (r_rdim r)); ("Org_Max", jint3 (z_max z)); ("Skip", jint3 (z_skip z));
        ("Begin", jint3 (z_begin z)); ("End", jint3 (z_end z)); ("Real_Max", jint3 (r_max r))]
    ++ says_aux (z_aux z)
    ++ [("Data_type_comment", JStr "1=Float, 2=Double, 3=LongInt, 4=ShortInt, 5=Byte, 6=Bit"); ("Data", JArr ds)])%list /\
    (z_strand z <> -1 -> says_number (z_time z) t) /\ Forall2 says_data (zl_data g) ds.
Definition says_file (g : file_log) (j : json) : Prop :=
  let f := fl_file g in
  exists t zs, j = JObj (
    [("FileName", JStr (f_name f ++ ".plt")); ("FilePath", JStr (f_path f)); ("Time", JStr (fl_begin g)); ("UsingTime", t);
     ("Title", JStr (f_title f)); ("FileType_comment", JStr "0 = FULL, 1 = GRID, 2 = SOLUTION"); ("FileType", jint (f_type f));
     ("Variables", JArr (map JStr (f_vars f)))]
    ++ says_aux (f_aux f) ++ [("Zones", JArr zs)])%list /\
    says_seconds (fl_using g) t /\ Forall2 says_zone (fl_zones g) zs.

(** ** Conditions *)

(** Texts that JSON leaves alone: no control character, quote or backslash. *)
Definition json_text (s : string) : Prop := chars (fun n => 32 <= n /\ n <> 34 /\ n <> 92) s.
Definition json_aux (a : aux) : Prop := Forall (fun p => json_text (fst p) /\ json_text (snd p)) a.
Definition json_zone (z : zone) : Prop := json_text (z_name z) /\ json_aux (z_aux z).
Definition json_plain (f : tfile) : Prop :=
  json_text (f_name f) /\ json_text (f_path f) /\ json_text (f_title f) /\ Forall json_text (f_vars f) /\
  json_aux (f_aux f) /\ Forall json_zone (f_zones f).

(** The numbers printed are finite. *)
Definition finite (b : Z) : Prop := exists v, num64 b = Fin v.
Definition finite_data (d : data_log) : Prop := finite (dl_min d) /\ finite (dl_max d).
Definition finite_zone (g : zone_log) : Prop :=
  (z_strand (zl_zone g) <> -1 -> finite (z_time (zl_zone g))) /\ Forall finite_data (zl_data g).
Definition finite_log (g : file_log) : Prop := finite (fl_using g) /\ Forall finite_zone (fl_zones g).
(** The numbers given are finite: sampled values, and solution times that are printed. *)
Definition finite_values (z : zone) (d : tdata) : Prop :=
  forall mem i, d_mem d = Some mem -> 0 <= i < product (samples_of z) ->
    exists v, value (d_type d) (block_of z (width (d_type d)) mem) i = Fin v.
Definition finite_given (z : zone) : Prop := (z_strand z <> -1 -> finite (z_time z)) /\ Forall (finite_values z) (z_data z).
Definition finite_file (f : tfile) : Prop := Forall finite_given (f_zones f).
