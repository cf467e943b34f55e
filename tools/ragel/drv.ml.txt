open Ex
let str l = String.init (List.length l) (fun i -> List.nth l i)
let str l = let b = Buffer.create 16 in List.iter (Buffer.add_char b) l; Buffer.contents b
let names = let ic = open_in "names.txt" in let rec go acc = match input_line ic with l -> go (l::acc) | exception End_of_file -> List.rev acc in go []
let read f = let ic = open_in_bin f in let n = in_channel_length ic in let s = really_input_string ic n in close_in ic; s
let ms = Hashtbl.create 100
let get n = match Hashtbl.find_opt ms n with Some m -> m | None ->
  let rec go a b = match a, b with x::_, p::_ when x = n -> p | _::a, _::b -> go a b | _ -> failwith n in
  let m = compile (go names all) in Hashtbl.add ms n m; m
let fuel = 50_000_000
(* input lines: parser<TAB>file ; output events *)
let () =
  try while true do
    let l = input_line stdin in
    let i = String.index l '\t' in
    let n = String.sub l 0 i and f = String.sub l (i+1) (String.length l - i - 1) in
    let t = read f in
    let text = List.init (String.length t) (fun i -> Char.code t.[i]) in
    (match get n with
     | None -> print_string "NOCOMPILE\n"
     | Some m ->
       match parse m text fuel with
       | Ok evs -> List.iter (fun e -> Printf.printf "%s %s %d %d\n" (str e.e_lang) (str e.e_entity) e.e_start e.e_end) evs
       | Ub _ -> print_string "UB\n"
       | OutOfFuel -> print_string "FUEL\n");
    print_string "END\n"; flush stdout
  done with End_of_file -> ()
