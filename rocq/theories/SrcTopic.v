(** SrcTopic.v -- GENERATED by tools/rust2coq.py from src/topic.rs; do not edit.
    Not translated:
     src/topic.rs:90 conditional item #[cfg(test)]
    No proofs in this file. *)
From Verif Require Import Base Lib SrcBase.

(** src/topic.rs:4-6 `has_wildcards` *)
Definition has_wildcards (s : list N) : outcome bool :=
  run (
    wret ((contains 43 s) || (contains 35 s))) [].

(** src/topic.rs:9-19 `valid_topic` *)
Definition valid_topic (topic : list N) : outcome bool :=
  run (
    if (contains 43 topic) then (
      wret false)
    else (
      if (contains 35 topic) then (
        wret false)
      else (
        wret true))) [].

(** src/topic.rs:24-48 `valid_filter` *)
Definition valid_filter (filter : list N) : outcome bool :=
  run (
    if (is_empty filter) then (
      wret false)
    else (
      let hirerarchy := (split 47 filter) in
      match (split_last hirerarchy) with
      | Some (last, remaining) =>
          t1 <-w for_ctl (fun entry (_ : unit) =>
              if (contains 35 entry) then (
                wret (Return false))
              else (
                wret (Next tt)))
            remaining tt ;;
          match t1 with
          | inr t2 => wret t2
          | inl _ =>
              if ((negb ((blen last) =? 1)) && (contains 35 last)) then (
                wret false)
              else (
                wret true)
          end
      | _ =>
          wret true
      end)) [].

(** src/topic.rs:55-88 `matches` *)
Definition matches (topic : list N) (filter : list N) : outcome bool :=
  run (
    t3 <-w (
      if (negb (is_empty topic)) then (
        t2 <-w lift (str_to topic 1) ;;
        wret (contains 36 t2))
      else wret false) ;;
    if t3 then (
      wret false)
    else (
      let topics := (split 47 topic) in
      let filters := (split 47 filter) in
      t4 <-w for_ctl (fun f topics =>
          if (bytes_eqb f [35]) then (
            wret (Return true))
          else (
            let '(top, topics) := iter_next topics in
            match top with
            | Some t =>
                if (bytes_eqb t [35]) then (
                  wret (Return false))
                else (
                  match top with
                  | Some _ =>
                      if (bytes_eqb f [43]) then (
                        wret (Next topics))
                      else (
                        match top with
                        | Some t =>
                            if (negb (bytes_eqb f t)) then (
                              wret (Return false))
                            else (
                              match top with
                              | Some _ =>
                                  wret (Next topics)
                              | None =>
                                  wret (Return false)
                              end)
                        | _ =>
                            match top with
                            | Some _ =>
                                wret (Next topics)
                            | None =>
                                wret (Return false)
                            end
                        end)
                  | _ =>
                      match top with
                      | Some t =>
                          if (negb (bytes_eqb f t)) then (
                            wret (Return false))
                          else (
                            match top with
                            | Some _ =>
                                wret (Next topics)
                            | None =>
                                wret (Return false)
                            end)
                      | _ =>
                          match top with
                          | Some _ =>
                              wret (Next topics)
                          | None =>
                              wret (Return false)
                          end
                      end
                  end)
            | _ =>
                match top with
                | Some _ =>
                    if (bytes_eqb f [43]) then (
                      wret (Next topics))
                    else (
                      match top with
                      | Some t =>
                          if (negb (bytes_eqb f t)) then (
                            wret (Return false))
                          else (
                            match top with
                            | Some _ =>
                                wret (Next topics)
                            | None =>
                                wret (Return false)
                            end)
                      | _ =>
                          match top with
                          | Some _ =>
                              wret (Next topics)
                          | None =>
                              wret (Return false)
                          end
                      end)
                | _ =>
                    match top with
                    | Some t =>
                        if (negb (bytes_eqb f t)) then (
                          wret (Return false))
                        else (
                          match top with
                          | Some _ =>
                              wret (Next topics)
                          | None =>
                              wret (Return false)
                          end)
                    | _ =>
                        match top with
                        | Some _ =>
                            wret (Next topics)
                        | None =>
                            wret (Return false)
                        end
                    end
                end
            end))
        filters topics ;;
      match t4 with
      | inr t5 => wret t5
      | inl topics =>
          let '(t6, topics) := iter_next topics in
          if (is_some t6) then (
            wret false)
          else (
            wret true)
      end)) [].
