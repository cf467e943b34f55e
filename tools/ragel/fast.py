s=open('ex.ml').read()
i=s.index('let src text i ='); j=s.index('type event =',i)
s=s[:i]+'''let cur_list = ref []
let cur_arr = ref [||]
let arr_of t = if t == !cur_list then !cur_arr else begin cur_list := t; cur_arr := Array.of_list t; !cur_arr end
let src text i =
  let a = arr_of text in
  if i < 0 then Ub OutOfBounds else if i < Array.length a then Ok a.(i) else if i = Array.length a then Ok 0 else Ub OutOfBounds

'''+s[j:]
s=s.replace('(length text)','(Array.length (arr_of text))')
open('ex.ml','w').write(s)
