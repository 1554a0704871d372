(** Model of source/mqtt_iot_metrics.c: the user name a client sends when SDK metrics are configured.
    Simplifications: strings are byte lists and arrays are lists (allocation does not fail); lengths do not overflow size_t; aws_get_platform_build_os_string
    is a parameter; logging is left out. aws_query_string_params, aws_byte_cursor_find_exact and aws_byte_cursor_next_split_on_cursor (aws-c-common) have their documented meaning;
    aws_byte_buf_clean_up reads through its argument. *)
From Verif Require Import Base Split Topic_Model TopicAlias_Model.

(** struct aws_mqtt_iot_metrics (include/aws/mqtt/mqtt.h): the name of the library, and entries of keys and values *)
Record metrics := mkmetrics { mt_library : bytes; mt_entries : list (bytes * bytes) }.
(** "SDK", "Platform", "Metadata", "IoTDeviceSDK/C"; mqtt_iot_metrics.c:371-373, :409-410 *)
Definition k_sdk : bytes := [83; 68; 75].
Definition k_platform : bytes := [80; 108; 97; 116; 102; 111; 114; 109].
Definition k_metadata : bytes := [77; 101; 116; 97; 100; 97; 116; 97].
Definition default_library : bytes := [73; 111; 84; 68; 101; 118; 105; 99; 101; 83; 68; 75; 47; 67].
(** the value of SDK, :409-410 *)
Definition library (m : metrics) : bytes := match mt_library m with [] => default_library | l => l end.
(** s_find_param_by_key, mqtt_iot_metrics.c:30-47: the index and the value *)
Fixpoint find_param (key : bytes) (l : list (bytes * bytes)) : option (nat * bytes) :=
  match l with [] => None | (k, v) :: m => if bytes_eqb k key then Some (O, v) else match find_param key m with Some (i, w) => Some (S i, w) | None => None end end.
(** s_add_param_if_not_exists, :57-72 *)
Definition add_param (key value : bytes) (l : list (bytes * bytes)) : list (bytes * bytes) := match find_param key l with Some _ => l | None => l ++ [(key, value)] end.
(** key=value or key, :101-117; aws_query_string_next_param does the same *)
Fixpoint cut (l : bytes) : bytes * bytes := match l with [] => ([], []) | x :: m => if x =? 61 then ([], m) else (x :: fst (cut m), snd (cut m)) end.
(** s_parse_delimited_entries, :83-122, for a delimiter of one byte; aws_query_string_params with "&". Empty entries are skipped *)
Definition parse (c : N) (l : bytes) : list (bytes * bytes) := flat_map (fun s => match s with [] => [] | _ => [cut s] end) (split c l).
(** s_merge_metadata_entries_no_overwrite, :131-140 *)
Definition merge (entries l : list (bytes * bytes)) : list (bytes * bytes) := fold_left (fun l e => add_param (fst e) (snd e) l) entries l.
(** appending to the output buffer, if there is one *)
Definition put (x : bytes) (out : option buf) : res (option buf) := match out with None => Ok None | Some b => do b' <- bwrite b x; Ok (Some b') end.
(** the loop of s_build_delimited_params, :193-228 *)
Fixpoint build_loop (first : bool) (c : N) (l : list (bytes * bytes)) (out : option buf) (size : N) : res (option buf * N) :=
  match l with
  | [] => Ok (out, size)
  | (k, v) :: m =>
    do out1 <- (if first then Ok out else put [c] out);
    let size1 := if first then size else size + 1 in
    do out2 <- match k with [] => Ok out1 | _ => put k out1 end;
    let size2 := size1 + len k in
    do x <- match v with [] => Ok (out2, size2) | _ => do out3 <- put [61] out2; do out4 <- put v out3; Ok (out4, size2 + (1 + len v)) end;
    build_loop false c m (fst x) (snd x)
  end.
(** s_build_delimited_params, :157-239 *)
Definition build (prefix suffix : bytes) (c : N) (l : list (bytes * bytes)) (out : option buf) : res (option buf * N) :=
  match l with
  | [] => Ok (out, 0)
  | _ =>
    do out1 <- match prefix with [] => Ok out | _ => put prefix out end;
    do x <- build_loop true c l out1 (len prefix + len suffix);
    do out2 <- match suffix with [] => Ok (fst x) | _ => put suffix (fst x) end;
    Ok (out2, snd x)
  end.
(** s_build_metadata_value, :250-260 *)
Definition build_metadata := build [40] [41] 59.
(** s_build_username_query, :273-305 *)
Definition build_username (base : bytes) (l : list (bytes * bytes)) (out : option buf) : res (option buf * N) :=
  do out1 <- put base out;
  do x <- build [63] [] 38 l out1;
  Ok (fst x, len base + snd x).
(** the loop that looks for the last question mark, :388-398: what is after it, and whether there is one *)
Fixpoint after_mark (l : bytes) : option bytes := match l with [] => None | x :: m => if x =? 63 then Some m else after_mark m end.
Fixpoint last_mark (fuel : nat) (l : bytes) (found : bool) : bytes * bool :=
  match after_mark l with None => (l, found) | Some m => match fuel with O => (l, found) | S n => last_mark n m true end end.
(** the user name proper and its query parameters, :384-406 *)
Definition user_base (u : bytes) : bytes := let (q, found) := last_mark (length u) u false in if found then firstn (length u - length q - 1) u else u.
Definition user_params (u : bytes) : list (bytes * bytes) := let (q, found) := last_mark (length u) u false in if found then parse 38 q else [].
(** aws_mqtt_validate_iot_metrics, :642-664 *)
Definition valid_metrics (m : metrics) : bool := validate_utf8_text (mt_library m) && forallb (fun e => validate_utf8_text (fst e) && validate_utf8_text (snd e)) (mt_entries m).
(** the content of a value "(...)", :437-449 *)
Definition content (v : bytes) : option bytes := if (2 <=? len v) && (hd 0 v =? 40) && (last v 0 =? 41) then Some (removelast (tl v)) else None.
(** aws_array_list_set_at *)
Fixpoint replace (i : nat) (p : bytes * bytes) (l : list (bytes * bytes)) : list (bytes * bytes) :=
  match l, i with [], _ => [] | _ :: m, O => p :: m | x :: m, S i => x :: replace i p m end.
(** the metadata entries, :416-483; an error if the value cannot be built *)
Definition with_metadata (entries params : list (bytes * bytes)) : res (list (bytes * bytes)) :=
  match entries with
  | [] => Ok params
  | _ =>
    let existing := find_param k_metadata params in
    match (match existing with None | Some (_, []) => Some [] | Some (_, v) => match content v with None => None | Some [] => Some [] | Some w => Some (parse 59 w) end end) with
    | None => Ok params
    | Some old =>
      let l := merge entries old in
      do a <- build_metadata l None;
      do b <- build_metadata l (Some (mkbuf (snd a) []));
      let p := (k_metadata, match fst b with Some x => bdata x | None => [] end) in
      Ok (match existing with Some (i, _) => replace i p params | None => params ++ [p] end)
    end
  end.
(** AWS_IOT_MAX_USERNAME_SIZE, :15 *)
Definition max_username : N := 65535.
(** Done: success, with what the output buffer holds (nothing if there is none) and the size that is reported; Failed: AWS_OP_ERR; Crash: a null pointer is read, :513-523 *)
Inductive outcome := Done (name : bytes) (size : N) | Failed | Crash.
(** aws_mqtt_append_sdk_metrics_to_username, :336-524. [want]: an output buffer is given *)
Definition append (platform u : bytes) (m : option metrics) (want : bool) : outcome :=
  match m with
  | None => Done (if want then u else []) (len u)
  | Some m =>
    if negb (valid_metrics m) then Failed
    else
      let cleanup := if want then Failed else Crash in
      let params := add_param k_platform platform (add_param k_sdk (library m) (user_params u)) in
      match with_metadata (mt_entries m) params with
      | Err _ => cleanup
      | Ok params =>
        match build_username (user_base u) params None with
        | Err _ => cleanup
        | Ok (_, total) =>
          if max_username <? total then cleanup
          else match build_username (user_base u) params (if want then Some (mkbuf total []) else None) with
               | Err _ => cleanup
               | Ok (out, n) => Done (match out with Some b => bdata b | None => [] end) n
               end
        end
      end
  end.
