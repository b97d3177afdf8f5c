(* GENERATED by transliterating include/strf/detail/ch32_width_and_gcb_prop, lines 8-2850: the
   decision tree from a code point above 0x7E to the label std_width_calc_func jumps to
   and the value ch_width has then (in columns).  Same comparisons, same order.
   handle_extend_and_control is the same label as handle_extend
   (facets/width_calculator.hpp:260-261). *)
From Verif Require Import Base.

(* the labels handle_xxx of width_calculator.hpp:210-385 *)
Inductive glabel := GControl | GExtend | GZwj | GSpacing | GPrepend | GRI | GXPic
  | GHangulL | GHangulV | GHangulT | GHangulLVorLVT | GOther.

Definition gcb_table (ch : Z) : glabel * Z :=
if ch <=? 0xA8F1 then 
 if ch <=? 0x1059 then 
  if ch <=? 0xB44 then 
   if ch <=? 0x961 then 
    if ch <=? 0x6ED then 
     if ch <=? 0x5FF then 
      if ch <=? 0x482 then 
       if ch <=? 0x2FF then 
        if ch <=? 0x9F then (GControl, 1)
        else if ch =? 0xA9 then (GXPic, 1)
         else if ch =? 0xAD then (GControl, 1)
          else if ch =? 0xAE then (GXPic, 1)
           else (GOther, 1)
       else if ch <=? 0x36F then (GExtend, 1)
        else (GOther, 1)
      else if ch <=? 0x590 then 
        if ch <=? 0x489 then (GExtend, 1)
        else (GOther, 1)
       else if ch <=? 0x5C7 then 
         if ch =? 0x5BE then (GOther, 1)
         else if ch =? 0x5C0 then (GOther, 1)
          else if ch =? 0x5C3 then (GOther, 1)
           else if ch =? 0x5C6 then (GOther, 1)
            else (GExtend, 1)
        else (GOther, 1)
     else if ch <=? 0x64A then 
       if ch <=? 0x60F then 
        if ch <=? 0x605 then (GPrepend, 1)
        else (GOther, 1)
       else if ch <=? 0x61C then 
         if ch =? 0x61B then (GOther, 1)
         else if ch =? 0x61C then (GControl, 1)
          else (GExtend, 1)
        else (GOther, 1)
      else if ch <=? 0x6D5 then 
        if ch <=? 0x65F then (GExtend, 1)
        else if ch =? 0x670 then (GExtend, 1)
         else (GOther, 1)
       else if ch <=? 0x6E4 then 
         if ch =? 0x6DD then (GPrepend, 1)
         else if ch =? 0x6DE then (GOther, 1)
          else (GExtend, 1)
        else if ch <=? 0x6E6 then (GOther, 1)
         else if ch =? 0x6E9 then (GOther, 1)
          else (GExtend, 1)
    else if ch <=? 0x858 then 
      if ch <=? 0x7B0 then 
       if ch <=? 0x74A then 
        if ch <=? 0x72F then 
         if ch =? 0x70F then (GPrepend, 1)
         else if ch =? 0x711 then (GExtend, 1)
          else (GOther, 1)
        else (GExtend, 1)
       else if ch <=? 0x7A5 then (GOther, 1)
        else (GExtend, 1)
      else if ch <=? 0x7F3 then 
        if ch <=? 0x7EA then (GOther, 1)
        else (GExtend, 1)
       else if ch <=? 0x815 then 
         if ch =? 0x7FD then (GExtend, 1)
         else (GOther, 1)
        else if ch <=? 0x82D then 
          if ch =? 0x81A then (GOther, 1)
          else if ch =? 0x824 then (GOther, 1)
           else if ch =? 0x828 then (GOther, 1)
            else (GExtend, 1)
         else (GOther, 1)
     else if ch <=? 0x93D then 
       if ch <=? 0x8D2 then 
        if ch <=? 0x85B then (GExtend, 1)
        else (GOther, 1)
       else if ch <=? 0x903 then 
         if ch =? 0x8E2 then (GPrepend, 1)
         else if ch =? 0x903 then (GSpacing, 1)
          else (GExtend, 1)
        else if ch =? 0x93A then (GExtend, 1)
         else if ch =? 0x93B then (GSpacing, 1)
          else if ch =? 0x93C then (GExtend, 1)
           else (GOther, 1)
      else if ch <=? 0x948 then 
        if ch <=? 0x940 then (GSpacing, 1)
        else (GExtend, 1)
       else if ch <=? 0x950 then 
         if ch =? 0x94D then (GExtend, 1)
         else if ch =? 0x950 then (GOther, 1)
          else (GSpacing, 1)
        else if ch <=? 0x957 then (GExtend, 1)
         else (GOther, 1)
   else if ch <=? 0xA46 then 
     if ch <=? 0x9CA then 
      if ch <=? 0x9BE then 
       if ch <=? 0x981 then 
        if ch <=? 0x963 then (GExtend, 1)
        else if ch =? 0x981 then (GExtend, 1)
         else (GOther, 1)
       else if ch <=? 0x983 then (GSpacing, 1)
        else if ch =? 0x9BC then (GExtend, 1)
         else if ch =? 0x9BE then (GExtend, 1)
          else (GOther, 1)
      else if ch <=? 0x9C4 then 
        if ch <=? 0x9C0 then (GSpacing, 1)
        else (GExtend, 1)
       else if ch <=? 0x9C6 then (GOther, 1)
        else if ch <=? 0x9C8 then (GSpacing, 1)
         else (GOther, 1)
     else if ch <=? 0xA00 then 
       if ch <=? 0x9E1 then 
        if ch <=? 0x9CD then 
         if ch =? 0x9CD then (GExtend, 1)
         else (GSpacing, 1)
        else if ch =? 0x9D7 then (GExtend, 1)
         else (GOther, 1)
       else if ch <=? 0x9E3 then (GExtend, 1)
        else if ch =? 0x9FE then (GExtend, 1)
         else (GOther, 1)
      else if ch <=? 0xA3D then 
        if ch <=? 0xA03 then 
         if ch =? 0xA03 then (GSpacing, 1)
         else (GExtend, 1)
        else if ch =? 0xA3C then (GExtend, 1)
         else (GOther, 1)
       else if ch <=? 0xA40 then (GSpacing, 1)
        else if ch <=? 0xA42 then (GExtend, 1)
         else (GOther, 1)
    else if ch <=? 0xAC0 then 
      if ch <=? 0xA6F then 
       if ch <=? 0xA4A then 
        if ch <=? 0xA48 then (GExtend, 1)
        else (GOther, 1)
       else if ch <=? 0xA4D then (GExtend, 1)
        else if ch =? 0xA51 then (GExtend, 1)
         else (GOther, 1)
      else if ch <=? 0xA80 then 
        if ch <=? 0xA71 then (GExtend, 1)
        else if ch =? 0xA75 then (GExtend, 1)
         else (GOther, 1)
       else if ch <=? 0xA83 then 
         if ch =? 0xA83 then (GSpacing, 1)
         else (GExtend, 1)
        else if ch <=? 0xABD then 
          if ch =? 0xABC then (GExtend, 1)
          else (GOther, 1)
         else (GSpacing, 1)
     else if ch <=? 0xAE3 then 
       if ch <=? 0xACD then 
        if ch <=? 0xACA then 
         if ch =? 0xAC6 then (GOther, 1)
         else if ch =? 0xAC9 then (GSpacing, 1)
          else if ch =? 0xACA then (GOther, 1)
           else (GExtend, 1)
        else if ch =? 0xACD then (GExtend, 1)
         else (GSpacing, 1)
       else if ch <=? 0xAE1 then (GOther, 1)
        else (GExtend, 1)
      else if ch <=? 0xB01 then 
        if ch <=? 0xAF9 then (GOther, 1)
        else if ch =? 0xB00 then (GOther, 1)
         else (GExtend, 1)
       else if ch <=? 0xB03 then (GSpacing, 1)
        else if ch <=? 0xB3D then 
          if ch =? 0xB3C then (GExtend, 1)
          else (GOther, 1)
         else if ch =? 0xB40 then (GSpacing, 1)
          else (GExtend, 1)
  else if ch <=? 0xD3E then 
    if ch <=? 0xC4D then 
     if ch <=? 0xBC0 then 
      if ch <=? 0xB4D then 
       if ch <=? 0xB48 then 
        if ch <=? 0xB46 then (GOther, 1)
        else (GSpacing, 1)
       else if ch <=? 0xB4A then (GOther, 1)
        else if ch =? 0xB4D then (GExtend, 1)
         else (GSpacing, 1)
      else if ch <=? 0xB57 then 
        if ch <=? 0xB54 then (GOther, 1)
        else (GExtend, 1)
       else if ch <=? 0xB61 then (GOther, 1)
        else if ch <=? 0xB63 then (GExtend, 1)
         else if ch =? 0xB82 then (GExtend, 1)
          else if ch =? 0xBBE then (GExtend, 1)
           else if ch =? 0xBBF then (GSpacing, 1)
            else if ch =? 0xBC0 then (GExtend, 1)
             else (GOther, 1)
     else if ch <=? 0xC00 then 
       if ch <=? 0xBC5 then 
        if ch <=? 0xBC2 then (GSpacing, 1)
        else (GOther, 1)
       else if ch <=? 0xBCD then 
         if ch =? 0xBC9 then (GOther, 1)
         else if ch =? 0xBCD then (GExtend, 1)
          else (GSpacing, 1)
        else if ch =? 0xBD7 then (GExtend, 1)
         else if ch =? 0xC00 then (GExtend, 1)
          else (GOther, 1)
      else if ch <=? 0xC3D then 
        if ch <=? 0xC04 then 
         if ch =? 0xC04 then (GExtend, 1)
         else (GSpacing, 1)
        else (GOther, 1)
       else if ch <=? 0xC40 then (GExtend, 1)
        else if ch <=? 0xC45 then 
          if ch =? 0xC45 then (GOther, 1)
          else (GSpacing, 1)
         else if ch =? 0xC49 then (GOther, 1)
          else (GExtend, 1)
    else if ch <=? 0xCCD then 
      if ch <=? 0xC63 then 
       if ch <=? 0xC56 then 
        if ch <=? 0xC54 then (GOther, 1)
        else (GExtend, 1)
       else if ch <=? 0xC61 then (GOther, 1)
        else (GExtend, 1)
      else if ch <=? 0xC83 then 
        if ch <=? 0xC81 then 
         if ch =? 0xC81 then (GExtend, 1)
         else (GOther, 1)
        else (GSpacing, 1)
       else if ch <=? 0xCBF then 
         if ch =? 0xCBC then (GExtend, 1)
         else if ch =? 0xCBE then (GSpacing, 1)
          else if ch =? 0xCBF then (GExtend, 1)
           else (GOther, 1)
        else if ch <=? 0xCCB then 
          if ch =? 0xCC2 then (GExtend, 1)
          else if ch =? 0xCC5 then (GOther, 1)
           else if ch =? 0xCC6 then (GExtend, 1)
            else if ch =? 0xCC9 then (GOther, 1)
             else (GSpacing, 1)
         else (GExtend, 1)
     else if ch <=? 0xCE3 then 
       if ch <=? 0xCD6 then 
        if ch <=? 0xCD4 then (GOther, 1)
        else (GExtend, 1)
       else if ch <=? 0xCE1 then (GOther, 1)
        else (GExtend, 1)
      else if ch <=? 0xD01 then 
        if ch <=? 0xCFF then (GOther, 1)
        else (GExtend, 1)
       else if ch <=? 0xD03 then (GSpacing, 1)
        else if ch <=? 0xD3A then (GOther, 1)
         else if ch =? 0xD3D then (GOther, 1)
          else (GExtend, 1)
   else if ch <=? 0xEB3 then 
     if ch <=? 0xDD1 then 
      if ch <=? 0xD61 then 
       if ch <=? 0xD45 then 
        if ch <=? 0xD40 then (GSpacing, 1)
        else if ch =? 0xD45 then (GOther, 1)
         else (GExtend, 1)
       else if ch <=? 0xD4E then 
         if ch =? 0xD49 then (GOther, 1)
         else if ch =? 0xD4D then (GExtend, 1)
          else if ch =? 0xD4E then (GPrepend, 1)
           else (GSpacing, 1)
        else if ch =? 0xD57 then (GExtend, 1)
         else (GOther, 1)
      else if ch <=? 0xD81 then 
        if ch <=? 0xD63 then (GExtend, 1)
        else if ch =? 0xD81 then (GExtend, 1)
         else (GOther, 1)
       else if ch <=? 0xD83 then (GSpacing, 1)
        else if ch <=? 0xDCF then 
          if ch =? 0xDCA then (GExtend, 1)
          else if ch =? 0xDCF then (GExtend, 1)
           else (GOther, 1)
         else (GSpacing, 1)
     else if ch <=? 0xDF3 then 
       if ch <=? 0xDDF then 
        if ch <=? 0xDD7 then 
         if ch =? 0xDD5 then (GOther, 1)
         else if ch =? 0xDD7 then (GOther, 1)
          else (GExtend, 1)
        else if ch =? 0xDDF then (GExtend, 1)
         else (GSpacing, 1)
       else if ch <=? 0xDF1 then (GOther, 1)
        else (GSpacing, 1)
      else if ch <=? 0xE3A then 
        if ch <=? 0xE33 then 
         if ch =? 0xE31 then (GExtend, 1)
         else if ch =? 0xE33 then (GSpacing, 1)
          else (GOther, 1)
        else (GExtend, 1)
       else if ch <=? 0xE46 then (GOther, 1)
        else if ch <=? 0xE4E then (GExtend, 1)
         else if ch =? 0xEB1 then (GExtend, 1)
          else if ch =? 0xEB3 then (GSpacing, 1)
           else (GOther, 1)
    else if ch <=? 0xF87 then 
      if ch <=? 0xF17 then 
       if ch <=? 0xEC7 then 
        if ch <=? 0xEBC then (GExtend, 1)
        else (GOther, 1)
       else if ch <=? 0xECD then (GExtend, 1)
        else (GOther, 1)
      else if ch <=? 0xF3D then 
        if ch <=? 0xF19 then (GExtend, 1)
        else if ch =? 0xF35 then (GExtend, 1)
         else if ch =? 0xF37 then (GExtend, 1)
          else if ch =? 0xF39 then (GExtend, 1)
           else (GOther, 1)
       else if ch <=? 0xF3F then (GSpacing, 1)
        else if ch <=? 0xF70 then (GOther, 1)
         else if ch =? 0xF7F then (GSpacing, 1)
          else if ch =? 0xF85 then (GOther, 1)
           else (GExtend, 1)
     else if ch <=? 0x103A then 
       if ch <=? 0xFBC then 
        if ch <=? 0xF8C then (GOther, 1)
        else if ch =? 0xF98 then (GOther, 1)
         else (GExtend, 1)
       else if ch <=? 0x102C then 
         if ch =? 0xFC6 then (GExtend, 1)
         else (GOther, 1)
        else if ch =? 0x1031 then (GSpacing, 1)
         else if ch =? 0x1038 then (GOther, 1)
          else (GExtend, 1)
      else if ch <=? 0x103E then 
        if ch <=? 0x103C then (GSpacing, 1)
        else (GExtend, 1)
       else if ch <=? 0x1055 then (GOther, 1)
        else if ch <=? 0x1057 then (GSpacing, 1)
         else (GExtend, 1)
 else if ch <=? 0x1CE8 then 
   if ch <=? 0x193B then 
    if ch <=? 0x1753 then 
     if ch <=? 0x11A7 then 
      if ch <=? 0x1074 then 
       if ch <=? 0x1060 then 
        if ch <=? 0x105D then (GOther, 1)
        else (GExtend, 1)
       else if ch <=? 0x1070 then (GOther, 1)
        else (GExtend, 1)
      else if ch <=? 0x1086 then 
        if ch <=? 0x1084 then 
         if ch =? 0x1082 then (GExtend, 1)
         else if ch =? 0x1084 then (GSpacing, 1)
          else (GOther, 1)
        else (GExtend, 1)
       else if ch <=? 0x10FF then 
         if ch =? 0x108D then (GExtend, 1)
         else if ch =? 0x109D then (GExtend, 1)
          else (GOther, 1)
        else if ch <=? 0x115F then (GHangulL, 2)
         else (GHangulV, 1)
     else if ch <=? 0x1711 then 
       if ch <=? 0x135C then 
        if ch <=? 0x11FF then (GHangulT, 1)
        else (GOther, 1)
       else if ch <=? 0x135F then (GExtend, 1)
        else (GOther, 1)
      else if ch <=? 0x1731 then 
        if ch <=? 0x1714 then (GExtend, 1)
        else (GOther, 1)
       else if ch <=? 0x1734 then (GExtend, 1)
        else if ch <=? 0x1751 then (GOther, 1)
         else (GExtend, 1)
    else if ch <=? 0x1884 then 
      if ch <=? 0x17BD then 
       if ch <=? 0x1773 then 
        if ch <=? 0x1771 then (GOther, 1)
        else (GExtend, 1)
       else if ch <=? 0x17B3 then (GOther, 1)
        else if ch =? 0x17B6 then (GSpacing, 1)
         else (GExtend, 1)
      else if ch <=? 0x17D3 then 
        if ch <=? 0x17C8 then 
         if ch =? 0x17C6 then (GExtend, 1)
         else (GSpacing, 1)
        else (GExtend, 1)
       else if ch <=? 0x180A then 
         if ch =? 0x17DD then (GExtend, 1)
         else (GOther, 1)
        else if ch <=? 0x180E then 
          if ch =? 0x180E then (GControl, 1)
          else (GExtend, 1)
         else (GOther, 1)
     else if ch <=? 0x1926 then 
       if ch <=? 0x191F then 
        if ch <=? 0x1886 then (GExtend, 1)
        else if ch =? 0x18A9 then (GExtend, 1)
         else (GOther, 1)
       else if ch <=? 0x1922 then (GExtend, 1)
        else (GSpacing, 1)
      else if ch <=? 0x192B then 
        if ch <=? 0x1928 then (GExtend, 1)
        else (GSpacing, 1)
       else if ch <=? 0x192F then (GOther, 1)
        else if ch <=? 0x1938 then 
          if ch =? 0x1932 then (GExtend, 1)
          else (GSpacing, 1)
         else (GExtend, 1)
   else if ch <=? 0x1B73 then 
     if ch <=? 0x1A7C then 
      if ch <=? 0x1A57 then 
       if ch <=? 0x1A18 then 
        if ch <=? 0x1A16 then (GOther, 1)
        else (GExtend, 1)
       else if ch <=? 0x1A1B then 
         if ch =? 0x1A1B then (GExtend, 1)
         else (GSpacing, 1)
        else if ch =? 0x1A55 then (GSpacing, 1)
         else if ch =? 0x1A56 then (GExtend, 1)
          else if ch =? 0x1A57 then (GSpacing, 1)
           else (GOther, 1)
      else if ch <=? 0x1A64 then 
        if ch <=? 0x1A62 then 
         if ch =? 0x1A5F then (GOther, 1)
         else if ch =? 0x1A61 then (GOther, 1)
          else (GExtend, 1)
        else (GOther, 1)
       else if ch <=? 0x1A6C then (GExtend, 1)
        else if ch <=? 0x1A72 then (GSpacing, 1)
         else (GExtend, 1)
     else if ch <=? 0x1B04 then 
       if ch <=? 0x1AC0 then 
        if ch <=? 0x1AAF then 
         if ch =? 0x1A7F then (GExtend, 1)
         else (GOther, 1)
        else (GExtend, 1)
       else if ch <=? 0x1AFF then (GOther, 1)
        else if ch =? 0x1B04 then (GSpacing, 1)
         else (GExtend, 1)
      else if ch <=? 0x1B3C then 
        if ch <=? 0x1B33 then (GOther, 1)
        else if ch =? 0x1B3B then (GSpacing, 1)
         else (GExtend, 1)
       else if ch <=? 0x1B44 then 
         if ch =? 0x1B42 then (GExtend, 1)
         else (GSpacing, 1)
        else if ch <=? 0x1B6A then (GOther, 1)
         else (GExtend, 1)
    else if ch <=? 0x1BEE then 
      if ch <=? 0x1BA5 then 
       if ch <=? 0x1B82 then 
        if ch <=? 0x1B7F then (GOther, 1)
        else if ch =? 0x1B82 then (GSpacing, 1)
         else (GExtend, 1)
       else if ch <=? 0x1BA1 then 
         if ch =? 0x1BA1 then (GSpacing, 1)
         else (GOther, 1)
        else (GExtend, 1)
      else if ch <=? 0x1BAD then 
        if ch <=? 0x1BA7 then (GSpacing, 1)
        else if ch =? 0x1BAA then (GSpacing, 1)
         else (GExtend, 1)
       else if ch <=? 0x1BE7 then 
         if ch =? 0x1BE6 then (GExtend, 1)
         else if ch =? 0x1BE7 then (GSpacing, 1)
          else (GOther, 1)
        else if ch <=? 0x1BE9 then (GExtend, 1)
         else if ch =? 0x1BED then (GExtend, 1)
          else (GSpacing, 1)
     else if ch <=? 0x1C2B then 
       if ch <=? 0x1BF3 then 
        if ch <=? 0x1BF1 then (GExtend, 1)
        else (GSpacing, 1)
       else if ch <=? 0x1C23 then (GOther, 1)
        else (GSpacing, 1)
      else if ch <=? 0x1C35 then 
        if ch <=? 0x1C33 then (GExtend, 1)
        else (GSpacing, 1)
       else if ch <=? 0x1C37 then (GExtend, 1)
        else if ch <=? 0x1CCF then (GOther, 1)
         else if ch =? 0x1CD3 then (GOther, 1)
          else if ch =? 0x1CE1 then (GSpacing, 1)
           else (GExtend, 1)
  else if ch <=? 0x2757 then 
    if ch <=? 0x231B then 
     if ch <=? 0x205F then 
      if ch <=? 0x1DFF then 
       if ch <=? 0x1CF9 then 
        if ch <=? 0x1CF7 then 
         if ch =? 0x1CED then (GExtend, 1)
         else if ch =? 0x1CF4 then (GExtend, 1)
          else if ch =? 0x1CF7 then (GSpacing, 1)
           else (GOther, 1)
        else (GExtend, 1)
       else if ch <=? 0x1DBF then (GOther, 1)
        else if ch =? 0x1DFA then (GOther, 1)
         else (GExtend, 1)
      else if ch <=? 0x200F then 
        if ch <=? 0x200D then 
         if ch =? 0x200B then (GControl, 1)
         else if ch =? 0x200C then (GExtend, 1)
          else if ch =? 0x200D then (GZwj, 1)
           else (GOther, 1)
        else (GControl, 1)
       else if ch <=? 0x2027 then (GOther, 1)
        else if ch <=? 0x202E then (GControl, 1)
         else if ch =? 0x203C then (GXPic, 1)
          else if ch =? 0x2049 then (GXPic, 1)
           else (GOther, 1)
     else if ch <=? 0x2193 then 
       if ch <=? 0x20CF then 
        if ch <=? 0x206F then (GControl, 1)
        else (GOther, 1)
       else if ch <=? 0x20F0 then (GExtend, 1)
        else if ch =? 0x2122 then (GXPic, 1)
         else if ch =? 0x2139 then (GXPic, 1)
          else (GOther, 1)
      else if ch <=? 0x21A8 then 
        if ch <=? 0x2199 then (GXPic, 1)
        else (GOther, 1)
       else if ch <=? 0x21AA then (GXPic, 1)
        else if ch <=? 0x2319 then (GOther, 1)
         else (GXPic, 1)
    else if ch <=? 0x25FA then 
      if ch <=? 0x23F3 then 
       if ch <=? 0x232A then 
        if ch <=? 0x2328 then 
         if ch =? 0x2328 then (GXPic, 1)
         else (GOther, 1)
        else (GOther, 2)
       else if ch <=? 0x23E8 then 
         if ch =? 0x2388 then (GXPic, 1)
         else if ch =? 0x23CF then (GXPic, 1)
          else (GOther, 1)
        else (GXPic, 1)
      else if ch <=? 0x23FA then 
        if ch <=? 0x23F7 then (GOther, 1)
        else (GXPic, 1)
       else if ch <=? 0x25A9 then 
         if ch =? 0x24C2 then (GXPic, 1)
         else (GOther, 1)
        else if ch <=? 0x25AB then (GXPic, 1)
         else if ch =? 0x25B6 then (GXPic, 1)
          else if ch =? 0x25C0 then (GXPic, 1)
           else (GOther, 1)
     else if ch <=? 0x2707 then 
       if ch <=? 0x268F then 
        if ch <=? 0x2685 then 
         if ch =? 0x25FF then (GOther, 1)
         else if ch =? 0x2606 then (GOther, 1)
          else if ch =? 0x2613 then (GOther, 1)
           else (GXPic, 1)
        else (GOther, 1)
       else if ch <=? 0x2705 then (GXPic, 1)
        else (GOther, 1)
      else if ch <=? 0x2732 then 
        if ch <=? 0x2716 then 
         if ch =? 0x2713 then (GOther, 1)
         else if ch =? 0x2715 then (GOther, 1)
          else (GXPic, 1)
        else if ch =? 0x271D then (GXPic, 1)
         else if ch =? 0x2721 then (GXPic, 1)
          else if ch =? 0x2728 then (GXPic, 1)
           else (GOther, 1)
       else if ch <=? 0x2734 then (GXPic, 1)
        else if ch <=? 0x2752 then 
          if ch =? 0x2744 then (GXPic, 1)
          else if ch =? 0x2747 then (GXPic, 1)
           else if ch =? 0x274C then (GXPic, 1)
            else if ch =? 0x274E then (GXPic, 1)
             else (GOther, 1)
         else if ch =? 0x2756 then (GOther, 1)
          else (GXPic, 1)
   else if ch <=? 0x3098 then 
     if ch <=? 0x2B1A then 
      if ch <=? 0x2797 then 
       if ch <=? 0x2767 then 
        if ch <=? 0x2762 then (GOther, 1)
        else (GXPic, 1)
       else if ch <=? 0x2794 then (GOther, 1)
        else (GXPic, 1)
      else if ch <=? 0x2935 then 
        if ch <=? 0x2933 then 
         if ch =? 0x27A1 then (GXPic, 1)
         else if ch =? 0x27B0 then (GXPic, 1)
          else if ch =? 0x27BF then (GXPic, 1)
           else (GOther, 1)
        else (GXPic, 1)
       else if ch <=? 0x2B04 then (GOther, 1)
        else if ch <=? 0x2B07 then (GXPic, 1)
         else (GOther, 1)
     else if ch <=? 0x2DDF then 
       if ch <=? 0x2CEE then 
        if ch <=? 0x2B1C then (GXPic, 1)
        else if ch =? 0x2B50 then (GXPic, 1)
         else if ch =? 0x2B55 then (GXPic, 1)
          else (GOther, 1)
       else if ch <=? 0x2CF1 then (GExtend, 1)
        else if ch =? 0x2D7F then (GExtend, 1)
         else (GOther, 1)
      else if ch <=? 0x2E7F then 
        if ch <=? 0x2DFF then (GExtend, 1)
        else (GOther, 1)
       else if ch <=? 0x3029 then (GOther, 2)
        else if ch <=? 0x3030 then 
          if ch =? 0x3030 then (GXPic, 2)
          else (GExtend, 2)
         else if ch =? 0x303D then (GXPic, 2)
          else if ch =? 0x303F then (GOther, 1)
           else (GOther, 2)
    else if ch <=? 0xA822 then 
      if ch <=? 0xA67D then 
       if ch <=? 0xA4CF then 
        if ch <=? 0x309A then (GExtend, 2)
        else if ch =? 0x3297 then (GXPic, 2)
         else if ch =? 0x3299 then (GXPic, 2)
          else (GOther, 2)
       else if ch <=? 0xA66E then (GOther, 1)
        else if ch =? 0xA673 then (GOther, 1)
         else (GExtend, 1)
      else if ch <=? 0xA69F then 
        if ch <=? 0xA69D then (GOther, 1)
        else (GExtend, 1)
       else if ch <=? 0xA6EF then (GOther, 1)
        else if ch <=? 0xA6F1 then (GExtend, 1)
         else if ch =? 0xA802 then (GExtend, 1)
          else if ch =? 0xA806 then (GExtend, 1)
           else if ch =? 0xA80B then (GExtend, 1)
            else (GOther, 1)
     else if ch <=? 0xA881 then 
       if ch <=? 0xA827 then 
        if ch <=? 0xA824 then (GSpacing, 1)
        else if ch =? 0xA827 then (GSpacing, 1)
         else (GExtend, 1)
       else if ch <=? 0xA87F then 
         if ch =? 0xA82C then (GExtend, 1)
         else (GOther, 1)
        else (GSpacing, 1)
      else if ch <=? 0xA8C3 then 
        if ch <=? 0xA8B3 then (GOther, 1)
        else (GSpacing, 1)
       else if ch <=? 0xA8C5 then (GExtend, 1)
        else if ch <=? 0xA8DF then (GOther, 1)
         else (GExtend, 1)
else if ch <=? 0x116AF then 
  if ch <=? 0x11037 then 
   if ch <=? 0xD7AF then 
    if ch <=? 0xAA2E then 
     if ch <=? 0xA97F then 
      if ch <=? 0xA951 then 
       if ch <=? 0xA92D then 
        if ch <=? 0xA925 then 
         if ch =? 0xA8FF then (GExtend, 1)
         else (GOther, 1)
        else (GExtend, 1)
       else if ch <=? 0xA946 then (GOther, 1)
        else (GExtend, 1)
      else if ch <=? 0xA95F then 
        if ch <=? 0xA953 then (GSpacing, 1)
        else (GOther, 1)
       else if ch <=? 0xA97C then (GHangulL, 1)
        else (GOther, 1)
     else if ch <=? 0xA9B9 then 
       if ch <=? 0xA9B3 then 
        if ch <=? 0xA983 then 
         if ch =? 0xA983 then (GSpacing, 1)
         else (GExtend, 1)
        else if ch =? 0xA9B3 then (GExtend, 1)
         else (GOther, 1)
       else if ch <=? 0xA9B5 then (GSpacing, 1)
        else (GExtend, 1)
      else if ch <=? 0xA9BD then 
        if ch <=? 0xA9BB then (GSpacing, 1)
        else (GExtend, 1)
       else if ch <=? 0xA9C0 then (GSpacing, 1)
        else if ch <=? 0xAA28 then 
          if ch =? 0xA9E5 then (GExtend, 1)
          else (GOther, 1)
         else (GExtend, 1)
    else if ch <=? 0xAABD then 
      if ch <=? 0xAA36 then 
       if ch <=? 0xAA32 then 
        if ch <=? 0xAA30 then (GSpacing, 1)
        else (GExtend, 1)
       else if ch <=? 0xAA34 then (GSpacing, 1)
        else (GExtend, 1)
      else if ch <=? 0xAAB4 then 
        if ch <=? 0xAAB1 then 
         if ch =? 0xAA43 then (GExtend, 1)
         else if ch =? 0xAA4C then (GExtend, 1)
          else if ch =? 0xAA4D then (GSpacing, 1)
           else if ch =? 0xAA7C then (GExtend, 1)
            else if ch =? 0xAAB0 then (GExtend, 1)
             else (GOther, 1)
        else (GExtend, 1)
       else if ch <=? 0xAAB6 then (GOther, 1)
        else if ch <=? 0xAAB8 then (GExtend, 1)
         else (GOther, 1)
     else if ch <=? 0xAAEF then 
       if ch <=? 0xAAEB then 
        if ch <=? 0xAAC1 then 
         if ch =? 0xAAC0 then (GOther, 1)
         else (GExtend, 1)
        else if ch =? 0xAAEB then (GSpacing, 1)
         else (GOther, 1)
       else if ch <=? 0xAAED then (GExtend, 1)
        else (GSpacing, 1)
      else if ch <=? 0xABED then 
        if ch <=? 0xABE2 then 
         if ch =? 0xAAF5 then (GSpacing, 1)
         else if ch =? 0xAAF6 then (GExtend, 1)
          else (GOther, 1)
        else if ch =? 0xABE5 then (GExtend, 1)
         else if ch =? 0xABE8 then (GExtend, 1)
          else if ch =? 0xABEB then (GOther, 1)
           else if ch =? 0xABED then (GExtend, 1)
            else (GSpacing, 1)
       else if ch <=? 0xABFF then (GOther, 1)
        else if ch <=? 0xD7A3 then (GHangulLVorLVT, 2)
         else (GOther, 1)
   else if ch <=? 0xFFEF then 
     if ch <=? 0xFE1F then 
      if ch <=? 0xF8FF then 
       if ch <=? 0xD7CA then 
        if ch <=? 0xD7C6 then (GHangulV, 1)
        else (GOther, 1)
       else if ch <=? 0xD7FB then (GHangulT, 1)
        else (GOther, 1)
      else if ch <=? 0xFDFF then 
        if ch <=? 0xFAFF then (GOther, 2)
        else if ch =? 0xFB1E then (GExtend, 1)
         else (GOther, 1)
       else if ch <=? 0xFE0F then (GExtend, 1)
        else if ch <=? 0xFE19 then (GOther, 2)
         else (GOther, 1)
     else if ch <=? 0xFF60 then 
       if ch <=? 0xFE6F then 
        if ch <=? 0xFE2F then (GExtend, 1)
        else (GOther, 2)
       else if ch <=? 0xFEFF then 
         if ch =? 0xFEFF then (GControl, 1)
         else (GOther, 1)
        else (GOther, 2)
      else if ch <=? 0xFF9F then 
        if ch <=? 0xFF9D then (GOther, 1)
        else (GExtend, 1)
       else if ch <=? 0xFFDF then (GOther, 1)
        else if ch <=? 0xFFE6 then (GOther, 2)
         else (GOther, 1)
    else if ch <=? 0x10A3A then 
      if ch <=? 0x10A00 then 
       if ch <=? 0x10375 then 
        if ch <=? 0xFFFB then (GControl, 1)
        else if ch =? 0x101FD then (GExtend, 1)
         else if ch =? 0x102E0 then (GExtend, 1)
          else (GOther, 1)
       else if ch <=? 0x1037A then (GExtend, 1)
        else (GOther, 1)
      else if ch <=? 0x10A0B then 
        if ch <=? 0x10A06 then 
         if ch =? 0x10A04 then (GOther, 1)
         else (GExtend, 1)
        else (GOther, 1)
       else if ch <=? 0x10A0F then (GExtend, 1)
        else if ch <=? 0x10A37 then (GOther, 1)
         else (GExtend, 1)
     else if ch <=? 0x10D27 then 
       if ch <=? 0x10AE6 then 
        if ch <=? 0x10AE4 then 
         if ch =? 0x10A3F then (GExtend, 1)
         else (GOther, 1)
        else (GExtend, 1)
       else if ch <=? 0x10D23 then (GOther, 1)
        else (GExtend, 1)
      else if ch <=? 0x10EAC then 
        if ch <=? 0x10EAA then (GOther, 1)
        else (GExtend, 1)
       else if ch <=? 0x10F45 then (GOther, 1)
        else if ch <=? 0x10F50 then (GExtend, 1)
         else if ch =? 0x11000 then (GSpacing, 1)
          else if ch =? 0x11001 then (GExtend, 1)
           else if ch =? 0x11002 then (GSpacing, 1)
            else (GOther, 1)
  else if ch <=? 0x11340 then 
    if ch <=? 0x111B5 then 
     if ch <=? 0x110FF then 
      if ch <=? 0x110AF then 
       if ch <=? 0x1107E then 
        if ch <=? 0x11046 then (GExtend, 1)
        else (GOther, 1)
       else if ch <=? 0x11082 then 
         if ch =? 0x11082 then (GSpacing, 1)
         else (GExtend, 1)
        else (GOther, 1)
      else if ch <=? 0x110B6 then 
        if ch <=? 0x110B2 then (GSpacing, 1)
        else (GExtend, 1)
       else if ch <=? 0x110B8 then (GSpacing, 1)
        else if ch <=? 0x110BA then (GExtend, 1)
         else if ch =? 0x110BD then (GPrepend, 1)
          else if ch =? 0x110CD then (GPrepend, 1)
           else (GOther, 1)
     else if ch <=? 0x11144 then 
       if ch <=? 0x11126 then 
        if ch <=? 0x11102 then (GExtend, 1)
        else (GOther, 1)
       else if ch <=? 0x11134 then 
         if ch =? 0x1112C then (GSpacing, 1)
         else (GExtend, 1)
        else (GOther, 1)
      else if ch <=? 0x1117F then 
        if ch <=? 0x11146 then (GSpacing, 1)
        else if ch =? 0x11173 then (GExtend, 1)
         else (GOther, 1)
       else if ch <=? 0x11182 then 
         if ch =? 0x11182 then (GSpacing, 1)
         else (GExtend, 1)
        else if ch <=? 0x111B2 then (GOther, 1)
         else (GSpacing, 1)
    else if ch <=? 0x11235 then 
      if ch <=? 0x111C8 then 
       if ch <=? 0x111C1 then 
        if ch <=? 0x111BE then (GExtend, 1)
        else if ch =? 0x111C1 then (GOther, 1)
         else (GSpacing, 1)
       else if ch <=? 0x111C3 then (GPrepend, 1)
        else (GOther, 1)
      else if ch <=? 0x1122B then 
        if ch <=? 0x111CF then 
         if ch =? 0x111CD then (GOther, 1)
         else if ch =? 0x111CE then (GSpacing, 1)
          else (GExtend, 1)
        else (GOther, 1)
       else if ch <=? 0x1122E then (GSpacing, 1)
        else if ch <=? 0x11231 then (GExtend, 1)
         else if ch =? 0x11234 then (GExtend, 1)
          else (GSpacing, 1)
     else if ch <=? 0x112EA then 
       if ch <=? 0x112DF then 
        if ch <=? 0x11237 then (GExtend, 1)
        else if ch =? 0x1123E then (GExtend, 1)
         else if ch =? 0x112DF then (GExtend, 1)
          else (GOther, 1)
       else if ch <=? 0x112E2 then (GSpacing, 1)
        else (GExtend, 1)
      else if ch <=? 0x11301 then 
        if ch <=? 0x112FF then (GOther, 1)
        else (GExtend, 1)
       else if ch <=? 0x11303 then (GSpacing, 1)
        else if ch <=? 0x1133A then (GOther, 1)
         else if ch =? 0x1133D then (GOther, 1)
          else if ch =? 0x1133F then (GSpacing, 1)
           else (GExtend, 1)
   else if ch <=? 0x114B2 then 
     if ch <=? 0x1136C then 
      if ch <=? 0x1134A then 
       if ch <=? 0x11346 then 
        if ch <=? 0x11344 then (GSpacing, 1)
        else (GOther, 1)
       else if ch <=? 0x11348 then (GSpacing, 1)
        else (GOther, 1)
      else if ch <=? 0x11361 then 
        if ch <=? 0x1134D then (GSpacing, 1)
        else if ch =? 0x11357 then (GExtend, 1)
         else (GOther, 1)
       else if ch <=? 0x11363 then (GSpacing, 1)
        else if ch <=? 0x11365 then (GOther, 1)
         else (GExtend, 1)
     else if ch <=? 0x11437 then 
       if ch <=? 0x11374 then 
        if ch <=? 0x1136F then (GOther, 1)
        else (GExtend, 1)
       else if ch <=? 0x11434 then (GOther, 1)
        else (GSpacing, 1)
      else if ch <=? 0x11441 then 
        if ch <=? 0x1143F then (GExtend, 1)
        else (GSpacing, 1)
       else if ch <=? 0x11446 then 
         if ch =? 0x11445 then (GSpacing, 1)
         else (GExtend, 1)
        else if ch <=? 0x114B0 then 
          if ch =? 0x1145E then (GExtend, 1)
          else if ch =? 0x114B0 then (GExtend, 1)
           else (GOther, 1)
         else (GSpacing, 1)
    else if ch <=? 0x115C0 then 
      if ch <=? 0x115AF then 
       if ch <=? 0x114BE then 
        if ch <=? 0x114BA then 
         if ch =? 0x114B9 then (GSpacing, 1)
         else (GExtend, 1)
        else if ch =? 0x114BD then (GExtend, 1)
         else (GSpacing, 1)
       else if ch <=? 0x114C3 then 
         if ch =? 0x114C1 then (GSpacing, 1)
         else (GExtend, 1)
        else if ch =? 0x115AF then (GExtend, 1)
         else (GOther, 1)
      else if ch <=? 0x115B5 then 
        if ch <=? 0x115B1 then (GSpacing, 1)
        else (GExtend, 1)
       else if ch <=? 0x115B7 then (GOther, 1)
        else if ch <=? 0x115BB then (GSpacing, 1)
         else if ch =? 0x115BE then (GSpacing, 1)
          else (GExtend, 1)
     else if ch <=? 0x11632 then 
       if ch <=? 0x115DD then 
        if ch <=? 0x115DB then (GOther, 1)
        else (GExtend, 1)
       else if ch <=? 0x1162F then (GOther, 1)
        else (GSpacing, 1)
      else if ch <=? 0x1163E then 
        if ch <=? 0x1163A then (GExtend, 1)
        else if ch =? 0x1163D then (GExtend, 1)
         else (GSpacing, 1)
       else if ch <=? 0x11640 then (GExtend, 1)
        else if ch <=? 0x116AD then 
          if ch =? 0x116AB then (GExtend, 1)
          else if ch =? 0x116AC then (GSpacing, 1)
           else if ch =? 0x116AD then (GExtend, 1)
            else (GOther, 1)
         else (GSpacing, 1)
 else if ch <=? 0x1D9FF then 
   if ch <=? 0x11D3B then 
    if ch <=? 0x119E0 then 
     if ch <=? 0x11930 then 
      if ch <=? 0x11721 then 
       if ch <=? 0x1171C then 
        if ch <=? 0x116B7 then 
         if ch =? 0x116B6 then (GSpacing, 1)
         else (GExtend, 1)
        else (GOther, 1)
       else if ch <=? 0x1171F then (GExtend, 1)
        else (GOther, 1)
      else if ch <=? 0x1182B then 
        if ch <=? 0x1172B then 
         if ch =? 0x11726 then (GSpacing, 1)
         else (GExtend, 1)
        else (GOther, 1)
       else if ch <=? 0x1182E then (GSpacing, 1)
        else if ch <=? 0x1183A then 
          if ch =? 0x11838 then (GSpacing, 1)
          else (GExtend, 1)
         else if ch =? 0x11930 then (GExtend, 1)
          else (GOther, 1)
     else if ch <=? 0x119D0 then 
       if ch <=? 0x1193A then 
        if ch <=? 0x11938 then 
         if ch =? 0x11936 then (GOther, 1)
         else (GSpacing, 1)
        else (GOther, 1)
       else if ch <=? 0x11943 then 
         if ch =? 0x1193D then (GSpacing, 1)
         else if ch =? 0x1193F then (GPrepend, 1)
          else if ch =? 0x11940 then (GSpacing, 1)
           else if ch =? 0x11941 then (GPrepend, 1)
            else if ch =? 0x11942 then (GSpacing, 1)
             else (GExtend, 1)
        else (GOther, 1)
      else if ch <=? 0x119D7 then 
        if ch <=? 0x119D3 then (GSpacing, 1)
        else (GExtend, 1)
       else if ch <=? 0x119D9 then (GOther, 1)
        else if ch <=? 0x119DB then (GExtend, 1)
         else if ch =? 0x119E0 then (GExtend, 1)
          else (GSpacing, 1)
    else if ch <=? 0x11A83 then 
      if ch <=? 0x11A3E then 
       if ch <=? 0x11A0A then 
        if ch <=? 0x11A00 then 
         if ch =? 0x119E4 then (GSpacing, 1)
         else (GOther, 1)
        else (GExtend, 1)
       else if ch <=? 0x11A32 then (GOther, 1)
        else if ch =? 0x11A39 then (GSpacing, 1)
         else if ch =? 0x11A3A then (GPrepend, 1)
          else (GExtend, 1)
      else if ch <=? 0x11A56 then 
        if ch <=? 0x11A50 then 
         if ch =? 0x11A47 then (GExtend, 1)
         else (GOther, 1)
        else (GExtend, 1)
       else if ch <=? 0x11A58 then (GSpacing, 1)
        else if ch <=? 0x11A5B then (GExtend, 1)
         else (GOther, 1)
     else if ch <=? 0x11C3F then 
       if ch <=? 0x11A99 then 
        if ch <=? 0x11A89 then (GPrepend, 1)
        else if ch =? 0x11A97 then (GSpacing, 1)
         else (GExtend, 1)
       else if ch <=? 0x11C2F then 
         if ch =? 0x11C2F then (GSpacing, 1)
         else (GOther, 1)
        else if ch =? 0x11C37 then (GOther, 1)
         else if ch =? 0x11C3E then (GSpacing, 1)
          else (GExtend, 1)
      else if ch <=? 0x11CB6 then 
        if ch <=? 0x11C91 then (GOther, 1)
        else if ch =? 0x11CA8 then (GOther, 1)
         else if ch =? 0x11CA9 then (GSpacing, 1)
          else if ch =? 0x11CB1 then (GSpacing, 1)
           else if ch =? 0x11CB4 then (GSpacing, 1)
            else (GExtend, 1)
       else if ch <=? 0x11D30 then (GOther, 1)
        else if ch <=? 0x11D36 then (GExtend, 1)
         else if ch =? 0x11D3A then (GExtend, 1)
          else (GOther, 1)
   else if ch <=? 0x16F92 then 
     if ch <=? 0x1342F then 
      if ch <=? 0x11D92 then 
       if ch <=? 0x11D89 then 
        if ch <=? 0x11D47 then 
         if ch =? 0x11D3E then (GOther, 1)
         else if ch =? 0x11D46 then (GPrepend, 1)
          else (GExtend, 1)
        else (GOther, 1)
       else if ch <=? 0x11D8F then 
         if ch =? 0x11D8F then (GOther, 1)
         else (GSpacing, 1)
        else if ch =? 0x11D92 then (GOther, 1)
         else (GExtend, 1)
      else if ch <=? 0x11EF2 then 
        if ch <=? 0x11D97 then 
         if ch =? 0x11D95 then (GExtend, 1)
         else if ch =? 0x11D97 then (GExtend, 1)
          else (GSpacing, 1)
        else (GOther, 1)
       else if ch <=? 0x11EF4 then (GExtend, 1)
        else if ch <=? 0x11EF6 then (GSpacing, 1)
         else (GOther, 1)
     else if ch <=? 0x16B2F then 
       if ch <=? 0x16AEF then 
        if ch <=? 0x13438 then (GControl, 1)
        else (GOther, 1)
       else if ch <=? 0x16AF4 then (GExtend, 1)
        else (GOther, 1)
      else if ch <=? 0x16F50 then 
        if ch <=? 0x16B36 then (GExtend, 1)
        else if ch =? 0x16F4F then (GExtend, 1)
         else (GOther, 1)
       else if ch <=? 0x16F87 then (GSpacing, 1)
        else if ch <=? 0x16F8E then (GOther, 1)
         else (GExtend, 1)
    else if ch <=? 0x1D172 then 
      if ch <=? 0x1BC9F then 
       if ch <=? 0x16FF1 then 
        if ch <=? 0x16FEF then 
         if ch =? 0x16FE4 then (GExtend, 1)
         else (GOther, 1)
        else (GSpacing, 1)
       else if ch <=? 0x1BC9C then (GOther, 1)
        else if ch =? 0x1BC9F then (GOther, 1)
         else (GExtend, 1)
      else if ch <=? 0x1D166 then 
        if ch <=? 0x1BCA3 then (GControl, 1)
        else if ch =? 0x1D165 then (GExtend, 1)
         else if ch =? 0x1D166 then (GSpacing, 1)
          else (GOther, 1)
       else if ch <=? 0x1D169 then (GExtend, 1)
        else if ch <=? 0x1D16D then 
          if ch =? 0x1D16D then (GSpacing, 1)
          else (GOther, 1)
         else (GExtend, 1)
     else if ch <=? 0x1D18B then 
       if ch <=? 0x1D182 then 
        if ch <=? 0x1D17A then (GControl, 1)
        else (GExtend, 1)
       else if ch <=? 0x1D184 then (GOther, 1)
        else (GExtend, 1)
      else if ch <=? 0x1D1AD then 
        if ch <=? 0x1D1A9 then (GOther, 1)
        else (GExtend, 1)
       else if ch <=? 0x1D241 then (GOther, 1)
        else if ch <=? 0x1D244 then (GExtend, 1)
         else (GOther, 1)
  else if ch <=? 0x1F3FA then 
    if ch <=? 0x1EFFF then 
     if ch <=? 0x1E02A then 
      if ch <=? 0x1DA9A then 
       if ch <=? 0x1DA3A then 
        if ch <=? 0x1DA36 then (GExtend, 1)
        else (GOther, 1)
       else if ch <=? 0x1DA6C then (GExtend, 1)
        else if ch =? 0x1DA75 then (GExtend, 1)
         else if ch =? 0x1DA84 then (GExtend, 1)
          else (GOther, 1)
      else if ch <=? 0x1DFFF then 
        if ch <=? 0x1DAAF then 
         if ch =? 0x1DAA0 then (GOther, 1)
         else (GExtend, 1)
        else (GOther, 1)
       else if ch <=? 0x1E018 then 
         if ch =? 0x1E007 then (GOther, 1)
         else (GExtend, 1)
        else if ch <=? 0x1E01A then (GOther, 1)
         else if ch =? 0x1E022 then (GOther, 1)
          else if ch =? 0x1E025 then (GOther, 1)
           else (GExtend, 1)
     else if ch <=? 0x1E2EF then 
       if ch <=? 0x1E136 then 
        if ch <=? 0x1E12F then (GOther, 1)
        else (GExtend, 1)
       else if ch <=? 0x1E2EB then (GOther, 1)
        else (GExtend, 1)
      else if ch <=? 0x1E8D6 then 
        if ch <=? 0x1E8CF then (GOther, 1)
        else (GExtend, 1)
       else if ch <=? 0x1E943 then (GOther, 1)
        else if ch <=? 0x1E94A then (GExtend, 1)
         else (GOther, 1)
    else if ch <=? 0x1F19A then 
      if ch <=? 0x1F16B then 
       if ch <=? 0x1F10C then 
        if ch <=? 0x1F0FF then (GXPic, 1)
        else (GOther, 1)
       else if ch <=? 0x1F10F then (GXPic, 1)
        else if ch =? 0x1F12F then (GXPic, 1)
         else (GOther, 1)
      else if ch <=? 0x1F17D then 
        if ch <=? 0x1F171 then (GXPic, 1)
        else (GOther, 1)
       else if ch <=? 0x1F17F then (GXPic, 1)
        else if ch <=? 0x1F190 then 
          if ch =? 0x1F18E then (GXPic, 1)
          else (GOther, 1)
         else (GXPic, 1)
     else if ch <=? 0x1F20F then 
       if ch <=? 0x1F1E5 then 
        if ch <=? 0x1F1AC then (GOther, 1)
        else (GXPic, 1)
       else if ch <=? 0x1F1FF then (GRI, 1)
        else if ch =? 0x1F200 then (GOther, 1)
         else (GXPic, 1)
      else if ch <=? 0x1F23F then 
        if ch <=? 0x1F231 then 
         if ch =? 0x1F21A then (GXPic, 1)
         else if ch =? 0x1F22F then (GXPic, 1)
          else (GOther, 1)
        else if ch =? 0x1F23B then (GOther, 1)
         else (GXPic, 1)
       else if ch <=? 0x1F248 then (GOther, 1)
        else if ch <=? 0x1F2FF then (GXPic, 1)
         else (GXPic, 2)
   else if ch <=? 0x1F88F then 
     if ch <=? 0x1F7D4 then 
      if ch <=? 0x1F64F then 
       if ch <=? 0x1F53D then 
        if ch <=? 0x1F3FF then (GExtend, 2)
        else (GXPic, 2)
       else if ch <=? 0x1F545 then (GOther, 2)
        else (GXPic, 2)
      else if ch <=? 0x1F6FF then 
        if ch <=? 0x1F67F then (GOther, 1)
        else (GXPic, 1)
       else if ch <=? 0x1F773 then (GOther, 1)
        else if ch <=? 0x1F77F then (GXPic, 1)
         else (GOther, 1)
     else if ch <=? 0x1F847 then 
       if ch <=? 0x1F80B then 
        if ch <=? 0x1F7FF then (GXPic, 1)
        else (GOther, 1)
       else if ch <=? 0x1F80F then (GXPic, 1)
        else (GOther, 1)
      else if ch <=? 0x1F859 then 
        if ch <=? 0x1F84F then (GXPic, 1)
        else (GOther, 1)
       else if ch <=? 0x1F85F then (GXPic, 1)
        else if ch <=? 0x1F887 then (GOther, 1)
         else (GXPic, 1)
    else if ch <=? 0x2FFFD then 
      if ch <=? 0x1F9FF then 
       if ch <=? 0x1F8FF then 
        if ch <=? 0x1F8AD then (GOther, 1)
        else (GXPic, 1)
       else if ch <=? 0x1F90B then (GOther, 2)
        else if ch =? 0x1F93B then (GOther, 2)
         else if ch =? 0x1F946 then (GOther, 2)
          else (GXPic, 2)
      else if ch <=? 0x1FBFF then 
        if ch <=? 0x1FAFF then (GXPic, 1)
        else (GOther, 1)
       else if ch <=? 0x1FFFD then (GXPic, 1)
        else if ch <=? 0x1FFFF then (GOther, 1)
         else (GOther, 2)
     else if ch <=? 0xE001F then 
       if ch <=? 0x3FFFD then 
        if ch <=? 0x2FFFF then (GOther, 1)
        else (GOther, 2)
       else if ch <=? 0xDFFFF then (GOther, 1)
        else (GControl, 1)
      else if ch <=? 0xE00FF then 
        if ch <=? 0xE007F then (GExtend, 1)
        else (GControl, 1)
       else if ch <=? 0xE01EF then (GExtend, 1)
        else if ch <=? 0xE0FFF then (GControl, 1)
         else (GOther, 1).
