open Survey
(* Which files are taken apart: described FILE ID SUB..., or described -a DIR TOP LETTER EXT ID *)
let s2c s = List.init (String.length s) (String.get s)
let read f = let ic = open_in_bin f in let n = in_channel_length ic in let s = really_input_string ic n in close_in ic; s2c s
let z s = Big_int_Z.big_int_of_int (int_of_string s)
let count l = List.fold_left (fun a s -> match s with Run (_, i) -> a + List.length i | _ -> a) 0 l
let () =
  if Sys.argv.(1) = "-a" then begin
    let dir = Sys.argv.(2) and top = Sys.argv.(3) in
    let ext = Sys.argv.(5) in
    let d = List.map (fun f -> (s2c f, read (Filename.concat dir f))) (List.filter (fun f -> Filename.check_suffix f ext) (Array.to_list (Sys.readdir dir))) in
    match survey d [] (s2c Sys.argv.(4)) (s2c ext) [] (z Sys.argv.(6)) (read (Filename.concat dir top)) with
    | None -> Printf.printf "%s: not taken apart\n" top
    | Some (segs, ps) -> Printf.printf "%s: %d records, %d superelements\n" top (count segs) (List.length ps)
  end else
    let f = Sys.argv.(1) in
    let b = read f in
    match records_of (fst (content_of b)) (z Sys.argv.(2)) (bool_of_string Sys.argv.(3)) b with
    | None -> Printf.printf "%s: not taken apart\n" (Filename.basename f)
    | Some segs ->
      let m = match mesh_of segs with Some (ns, es) -> Printf.sprintf ", %d nodes, %d elements" (List.length ns) (List.length es) ^
        String.concat "" (List.map (fun r -> match noderes_of segs (s2c r) (List.length ns) with Some bs -> Printf.sprintf ", %s %d" r (List.length bs) | None -> "") ["RVNODDIS"; "RVNODVEL"; "RVNODACC"]) ^
        String.concat "" (List.map (fun r -> match elemres_of segs (s2c r) es with Some bs -> Printf.sprintf ", %s %d" r (List.length bs) | None -> "") ["RVSTRESS"; "RVFORCES"])
        | None -> "" in
      Printf.printf "%s: %d records%s\n" (Filename.basename f) (count segs) m
