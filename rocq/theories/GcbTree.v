(* GENERATED together with GcbTable.v: the same decision tree as data, so that facts about
   it can be checked on intervals of code points; [gcb_tree_ok] relates the two. *)
From Verif Require Import Base GcbTable.
Inductive dtree := Leaf (l : glabel) (w : Z) | Le (n : Z) (a b : dtree) | Eq (n : Z) (a b : dtree).
Fixpoint deval (t : dtree) (ch : Z) : glabel * Z :=
  match t with
  | Leaf l w => (l, w)
  | Le n a b => if ch <=? n then deval a ch else deval b ch
  | Eq n a b => if ch =? n then deval a ch else deval b ch
  end.
Definition gcb_tree : dtree :=
(Le 0xA8F1
 (Le 0x1059
  (Le 0xB44
   (Le 0x961
    (Le 0x6ED
     (Le 0x5FF
      (Le 0x482
       (Le 0x2FF
        (Le 0x9F
         (Leaf GControl 1)
         (Eq 0xA9
          (Leaf GXPic 1)
          (Eq 0xAD
           (Leaf GControl 1)
           (Eq 0xAE
            (Leaf GXPic 1)
            (Leaf GOther 1)))))
        (Le 0x36F
         (Leaf GExtend 1)
         (Leaf GOther 1)))
       (Le 0x590
        (Le 0x489
         (Leaf GExtend 1)
         (Leaf GOther 1))
        (Le 0x5C7
         (Eq 0x5BE
          (Leaf GOther 1)
          (Eq 0x5C0
           (Leaf GOther 1)
           (Eq 0x5C3
            (Leaf GOther 1)
            (Eq 0x5C6
             (Leaf GOther 1)
             (Leaf GExtend 1)))))
         (Leaf GOther 1))))
      (Le 0x64A
       (Le 0x60F
        (Le 0x605
         (Leaf GPrepend 1)
         (Leaf GOther 1))
        (Le 0x61C
         (Eq 0x61B
          (Leaf GOther 1)
          (Eq 0x61C
           (Leaf GControl 1)
           (Leaf GExtend 1)))
         (Leaf GOther 1)))
       (Le 0x6D5
        (Le 0x65F
         (Leaf GExtend 1)
         (Eq 0x670
          (Leaf GExtend 1)
          (Leaf GOther 1)))
        (Le 0x6E4
         (Eq 0x6DD
          (Leaf GPrepend 1)
          (Eq 0x6DE
           (Leaf GOther 1)
           (Leaf GExtend 1)))
         (Le 0x6E6
          (Leaf GOther 1)
          (Eq 0x6E9
           (Leaf GOther 1)
           (Leaf GExtend 1)))))))
     (Le 0x858
      (Le 0x7B0
       (Le 0x74A
        (Le 0x72F
         (Eq 0x70F
          (Leaf GPrepend 1)
          (Eq 0x711
           (Leaf GExtend 1)
           (Leaf GOther 1)))
         (Leaf GExtend 1))
        (Le 0x7A5
         (Leaf GOther 1)
         (Leaf GExtend 1)))
       (Le 0x7F3
        (Le 0x7EA
         (Leaf GOther 1)
         (Leaf GExtend 1))
        (Le 0x815
         (Eq 0x7FD
          (Leaf GExtend 1)
          (Leaf GOther 1))
         (Le 0x82D
          (Eq 0x81A
           (Leaf GOther 1)
           (Eq 0x824
            (Leaf GOther 1)
            (Eq 0x828
             (Leaf GOther 1)
             (Leaf GExtend 1))))
          (Leaf GOther 1)))))
      (Le 0x93D
       (Le 0x8D2
        (Le 0x85B
         (Leaf GExtend 1)
         (Leaf GOther 1))
        (Le 0x903
         (Eq 0x8E2
          (Leaf GPrepend 1)
          (Eq 0x903
           (Leaf GSpacing 1)
           (Leaf GExtend 1)))
         (Eq 0x93A
          (Leaf GExtend 1)
          (Eq 0x93B
           (Leaf GSpacing 1)
           (Eq 0x93C
            (Leaf GExtend 1)
            (Leaf GOther 1))))))
       (Le 0x948
        (Le 0x940
         (Leaf GSpacing 1)
         (Leaf GExtend 1))
        (Le 0x950
         (Eq 0x94D
          (Leaf GExtend 1)
          (Eq 0x950
           (Leaf GOther 1)
           (Leaf GSpacing 1)))
         (Le 0x957
          (Leaf GExtend 1)
          (Leaf GOther 1)))))))
    (Le 0xA46
     (Le 0x9CA
      (Le 0x9BE
       (Le 0x981
        (Le 0x963
         (Leaf GExtend 1)
         (Eq 0x981
          (Leaf GExtend 1)
          (Leaf GOther 1)))
        (Le 0x983
         (Leaf GSpacing 1)
         (Eq 0x9BC
          (Leaf GExtend 1)
          (Eq 0x9BE
           (Leaf GExtend 1)
           (Leaf GOther 1)))))
       (Le 0x9C4
        (Le 0x9C0
         (Leaf GSpacing 1)
         (Leaf GExtend 1))
        (Le 0x9C6
         (Leaf GOther 1)
         (Le 0x9C8
          (Leaf GSpacing 1)
          (Leaf GOther 1)))))
      (Le 0xA00
       (Le 0x9E1
        (Le 0x9CD
         (Eq 0x9CD
          (Leaf GExtend 1)
          (Leaf GSpacing 1))
         (Eq 0x9D7
          (Leaf GExtend 1)
          (Leaf GOther 1)))
        (Le 0x9E3
         (Leaf GExtend 1)
         (Eq 0x9FE
          (Leaf GExtend 1)
          (Leaf GOther 1))))
       (Le 0xA3D
        (Le 0xA03
         (Eq 0xA03
          (Leaf GSpacing 1)
          (Leaf GExtend 1))
         (Eq 0xA3C
          (Leaf GExtend 1)
          (Leaf GOther 1)))
        (Le 0xA40
         (Leaf GSpacing 1)
         (Le 0xA42
          (Leaf GExtend 1)
          (Leaf GOther 1))))))
     (Le 0xAC0
      (Le 0xA6F
       (Le 0xA4A
        (Le 0xA48
         (Leaf GExtend 1)
         (Leaf GOther 1))
        (Le 0xA4D
         (Leaf GExtend 1)
         (Eq 0xA51
          (Leaf GExtend 1)
          (Leaf GOther 1))))
       (Le 0xA80
        (Le 0xA71
         (Leaf GExtend 1)
         (Eq 0xA75
          (Leaf GExtend 1)
          (Leaf GOther 1)))
        (Le 0xA83
         (Eq 0xA83
          (Leaf GSpacing 1)
          (Leaf GExtend 1))
         (Le 0xABD
          (Eq 0xABC
           (Leaf GExtend 1)
           (Leaf GOther 1))
          (Leaf GSpacing 1)))))
      (Le 0xAE3
       (Le 0xACD
        (Le 0xACA
         (Eq 0xAC6
          (Leaf GOther 1)
          (Eq 0xAC9
           (Leaf GSpacing 1)
           (Eq 0xACA
            (Leaf GOther 1)
            (Leaf GExtend 1))))
         (Eq 0xACD
          (Leaf GExtend 1)
          (Leaf GSpacing 1)))
        (Le 0xAE1
         (Leaf GOther 1)
         (Leaf GExtend 1)))
       (Le 0xB01
        (Le 0xAF9
         (Leaf GOther 1)
         (Eq 0xB00
          (Leaf GOther 1)
          (Leaf GExtend 1)))
        (Le 0xB03
         (Leaf GSpacing 1)
         (Le 0xB3D
          (Eq 0xB3C
           (Leaf GExtend 1)
           (Leaf GOther 1))
          (Eq 0xB40
           (Leaf GSpacing 1)
           (Leaf GExtend 1)))))))))
   (Le 0xD3E
    (Le 0xC4D
     (Le 0xBC0
      (Le 0xB4D
       (Le 0xB48
        (Le 0xB46
         (Leaf GOther 1)
         (Leaf GSpacing 1))
        (Le 0xB4A
         (Leaf GOther 1)
         (Eq 0xB4D
          (Leaf GExtend 1)
          (Leaf GSpacing 1))))
       (Le 0xB57
        (Le 0xB54
         (Leaf GOther 1)
         (Leaf GExtend 1))
        (Le 0xB61
         (Leaf GOther 1)
         (Le 0xB63
          (Leaf GExtend 1)
          (Eq 0xB82
           (Leaf GExtend 1)
           (Eq 0xBBE
            (Leaf GExtend 1)
            (Eq 0xBBF
             (Leaf GSpacing 1)
             (Eq 0xBC0
              (Leaf GExtend 1)
              (Leaf GOther 1)))))))))
      (Le 0xC00
       (Le 0xBC5
        (Le 0xBC2
         (Leaf GSpacing 1)
         (Leaf GOther 1))
        (Le 0xBCD
         (Eq 0xBC9
          (Leaf GOther 1)
          (Eq 0xBCD
           (Leaf GExtend 1)
           (Leaf GSpacing 1)))
         (Eq 0xBD7
          (Leaf GExtend 1)
          (Eq 0xC00
           (Leaf GExtend 1)
           (Leaf GOther 1)))))
       (Le 0xC3D
        (Le 0xC04
         (Eq 0xC04
          (Leaf GExtend 1)
          (Leaf GSpacing 1))
         (Leaf GOther 1))
        (Le 0xC40
         (Leaf GExtend 1)
         (Le 0xC45
          (Eq 0xC45
           (Leaf GOther 1)
           (Leaf GSpacing 1))
          (Eq 0xC49
           (Leaf GOther 1)
           (Leaf GExtend 1)))))))
     (Le 0xCCD
      (Le 0xC63
       (Le 0xC56
        (Le 0xC54
         (Leaf GOther 1)
         (Leaf GExtend 1))
        (Le 0xC61
         (Leaf GOther 1)
         (Leaf GExtend 1)))
       (Le 0xC83
        (Le 0xC81
         (Eq 0xC81
          (Leaf GExtend 1)
          (Leaf GOther 1))
         (Leaf GSpacing 1))
        (Le 0xCBF
         (Eq 0xCBC
          (Leaf GExtend 1)
          (Eq 0xCBE
           (Leaf GSpacing 1)
           (Eq 0xCBF
            (Leaf GExtend 1)
            (Leaf GOther 1))))
         (Le 0xCCB
          (Eq 0xCC2
           (Leaf GExtend 1)
           (Eq 0xCC5
            (Leaf GOther 1)
            (Eq 0xCC6
             (Leaf GExtend 1)
             (Eq 0xCC9
              (Leaf GOther 1)
              (Leaf GSpacing 1)))))
          (Leaf GExtend 1)))))
      (Le 0xCE3
       (Le 0xCD6
        (Le 0xCD4
         (Leaf GOther 1)
         (Leaf GExtend 1))
        (Le 0xCE1
         (Leaf GOther 1)
         (Leaf GExtend 1)))
       (Le 0xD01
        (Le 0xCFF
         (Leaf GOther 1)
         (Leaf GExtend 1))
        (Le 0xD03
         (Leaf GSpacing 1)
         (Le 0xD3A
          (Leaf GOther 1)
          (Eq 0xD3D
           (Leaf GOther 1)
           (Leaf GExtend 1))))))))
    (Le 0xEB3
     (Le 0xDD1
      (Le 0xD61
       (Le 0xD45
        (Le 0xD40
         (Leaf GSpacing 1)
         (Eq 0xD45
          (Leaf GOther 1)
          (Leaf GExtend 1)))
        (Le 0xD4E
         (Eq 0xD49
          (Leaf GOther 1)
          (Eq 0xD4D
           (Leaf GExtend 1)
           (Eq 0xD4E
            (Leaf GPrepend 1)
            (Leaf GSpacing 1))))
         (Eq 0xD57
          (Leaf GExtend 1)
          (Leaf GOther 1))))
       (Le 0xD81
        (Le 0xD63
         (Leaf GExtend 1)
         (Eq 0xD81
          (Leaf GExtend 1)
          (Leaf GOther 1)))
        (Le 0xD83
         (Leaf GSpacing 1)
         (Le 0xDCF
          (Eq 0xDCA
           (Leaf GExtend 1)
           (Eq 0xDCF
            (Leaf GExtend 1)
            (Leaf GOther 1)))
          (Leaf GSpacing 1)))))
      (Le 0xDF3
       (Le 0xDDF
        (Le 0xDD7
         (Eq 0xDD5
          (Leaf GOther 1)
          (Eq 0xDD7
           (Leaf GOther 1)
           (Leaf GExtend 1)))
         (Eq 0xDDF
          (Leaf GExtend 1)
          (Leaf GSpacing 1)))
        (Le 0xDF1
         (Leaf GOther 1)
         (Leaf GSpacing 1)))
       (Le 0xE3A
        (Le 0xE33
         (Eq 0xE31
          (Leaf GExtend 1)
          (Eq 0xE33
           (Leaf GSpacing 1)
           (Leaf GOther 1)))
         (Leaf GExtend 1))
        (Le 0xE46
         (Leaf GOther 1)
         (Le 0xE4E
          (Leaf GExtend 1)
          (Eq 0xEB1
           (Leaf GExtend 1)
           (Eq 0xEB3
            (Leaf GSpacing 1)
            (Leaf GOther 1))))))))
     (Le 0xF87
      (Le 0xF17
       (Le 0xEC7
        (Le 0xEBC
         (Leaf GExtend 1)
         (Leaf GOther 1))
        (Le 0xECD
         (Leaf GExtend 1)
         (Leaf GOther 1)))
       (Le 0xF3D
        (Le 0xF19
         (Leaf GExtend 1)
         (Eq 0xF35
          (Leaf GExtend 1)
          (Eq 0xF37
           (Leaf GExtend 1)
           (Eq 0xF39
            (Leaf GExtend 1)
            (Leaf GOther 1)))))
        (Le 0xF3F
         (Leaf GSpacing 1)
         (Le 0xF70
          (Leaf GOther 1)
          (Eq 0xF7F
           (Leaf GSpacing 1)
           (Eq 0xF85
            (Leaf GOther 1)
            (Leaf GExtend 1)))))))
      (Le 0x103A
       (Le 0xFBC
        (Le 0xF8C
         (Leaf GOther 1)
         (Eq 0xF98
          (Leaf GOther 1)
          (Leaf GExtend 1)))
        (Le 0x102C
         (Eq 0xFC6
          (Leaf GExtend 1)
          (Leaf GOther 1))
         (Eq 0x1031
          (Leaf GSpacing 1)
          (Eq 0x1038
           (Leaf GOther 1)
           (Leaf GExtend 1)))))
       (Le 0x103E
        (Le 0x103C
         (Leaf GSpacing 1)
         (Leaf GExtend 1))
        (Le 0x1055
         (Leaf GOther 1)
         (Le 0x1057
          (Leaf GSpacing 1)
          (Leaf GExtend 1)))))))))
  (Le 0x1CE8
   (Le 0x193B
    (Le 0x1753
     (Le 0x11A7
      (Le 0x1074
       (Le 0x1060
        (Le 0x105D
         (Leaf GOther 1)
         (Leaf GExtend 1))
        (Le 0x1070
         (Leaf GOther 1)
         (Leaf GExtend 1)))
       (Le 0x1086
        (Le 0x1084
         (Eq 0x1082
          (Leaf GExtend 1)
          (Eq 0x1084
           (Leaf GSpacing 1)
           (Leaf GOther 1)))
         (Leaf GExtend 1))
        (Le 0x10FF
         (Eq 0x108D
          (Leaf GExtend 1)
          (Eq 0x109D
           (Leaf GExtend 1)
           (Leaf GOther 1)))
         (Le 0x115F
          (Leaf GHangulL 2)
          (Leaf GHangulV 1)))))
      (Le 0x1711
       (Le 0x135C
        (Le 0x11FF
         (Leaf GHangulT 1)
         (Leaf GOther 1))
        (Le 0x135F
         (Leaf GExtend 1)
         (Leaf GOther 1)))
       (Le 0x1731
        (Le 0x1714
         (Leaf GExtend 1)
         (Leaf GOther 1))
        (Le 0x1734
         (Leaf GExtend 1)
         (Le 0x1751
          (Leaf GOther 1)
          (Leaf GExtend 1))))))
     (Le 0x1884
      (Le 0x17BD
       (Le 0x1773
        (Le 0x1771
         (Leaf GOther 1)
         (Leaf GExtend 1))
        (Le 0x17B3
         (Leaf GOther 1)
         (Eq 0x17B6
          (Leaf GSpacing 1)
          (Leaf GExtend 1))))
       (Le 0x17D3
        (Le 0x17C8
         (Eq 0x17C6
          (Leaf GExtend 1)
          (Leaf GSpacing 1))
         (Leaf GExtend 1))
        (Le 0x180A
         (Eq 0x17DD
          (Leaf GExtend 1)
          (Leaf GOther 1))
         (Le 0x180E
          (Eq 0x180E
           (Leaf GControl 1)
           (Leaf GExtend 1))
          (Leaf GOther 1)))))
      (Le 0x1926
       (Le 0x191F
        (Le 0x1886
         (Leaf GExtend 1)
         (Eq 0x18A9
          (Leaf GExtend 1)
          (Leaf GOther 1)))
        (Le 0x1922
         (Leaf GExtend 1)
         (Leaf GSpacing 1)))
       (Le 0x192B
        (Le 0x1928
         (Leaf GExtend 1)
         (Leaf GSpacing 1))
        (Le 0x192F
         (Leaf GOther 1)
         (Le 0x1938
          (Eq 0x1932
           (Leaf GExtend 1)
           (Leaf GSpacing 1))
          (Leaf GExtend 1)))))))
    (Le 0x1B73
     (Le 0x1A7C
      (Le 0x1A57
       (Le 0x1A18
        (Le 0x1A16
         (Leaf GOther 1)
         (Leaf GExtend 1))
        (Le 0x1A1B
         (Eq 0x1A1B
          (Leaf GExtend 1)
          (Leaf GSpacing 1))
         (Eq 0x1A55
          (Leaf GSpacing 1)
          (Eq 0x1A56
           (Leaf GExtend 1)
           (Eq 0x1A57
            (Leaf GSpacing 1)
            (Leaf GOther 1))))))
       (Le 0x1A64
        (Le 0x1A62
         (Eq 0x1A5F
          (Leaf GOther 1)
          (Eq 0x1A61
           (Leaf GOther 1)
           (Leaf GExtend 1)))
         (Leaf GOther 1))
        (Le 0x1A6C
         (Leaf GExtend 1)
         (Le 0x1A72
          (Leaf GSpacing 1)
          (Leaf GExtend 1)))))
      (Le 0x1B04
       (Le 0x1AC0
        (Le 0x1AAF
         (Eq 0x1A7F
          (Leaf GExtend 1)
          (Leaf GOther 1))
         (Leaf GExtend 1))
        (Le 0x1AFF
         (Leaf GOther 1)
         (Eq 0x1B04
          (Leaf GSpacing 1)
          (Leaf GExtend 1))))
       (Le 0x1B3C
        (Le 0x1B33
         (Leaf GOther 1)
         (Eq 0x1B3B
          (Leaf GSpacing 1)
          (Leaf GExtend 1)))
        (Le 0x1B44
         (Eq 0x1B42
          (Leaf GExtend 1)
          (Leaf GSpacing 1))
         (Le 0x1B6A
          (Leaf GOther 1)
          (Leaf GExtend 1))))))
     (Le 0x1BEE
      (Le 0x1BA5
       (Le 0x1B82
        (Le 0x1B7F
         (Leaf GOther 1)
         (Eq 0x1B82
          (Leaf GSpacing 1)
          (Leaf GExtend 1)))
        (Le 0x1BA1
         (Eq 0x1BA1
          (Leaf GSpacing 1)
          (Leaf GOther 1))
         (Leaf GExtend 1)))
       (Le 0x1BAD
        (Le 0x1BA7
         (Leaf GSpacing 1)
         (Eq 0x1BAA
          (Leaf GSpacing 1)
          (Leaf GExtend 1)))
        (Le 0x1BE7
         (Eq 0x1BE6
          (Leaf GExtend 1)
          (Eq 0x1BE7
           (Leaf GSpacing 1)
           (Leaf GOther 1)))
         (Le 0x1BE9
          (Leaf GExtend 1)
          (Eq 0x1BED
           (Leaf GExtend 1)
           (Leaf GSpacing 1))))))
      (Le 0x1C2B
       (Le 0x1BF3
        (Le 0x1BF1
         (Leaf GExtend 1)
         (Leaf GSpacing 1))
        (Le 0x1C23
         (Leaf GOther 1)
         (Leaf GSpacing 1)))
       (Le 0x1C35
        (Le 0x1C33
         (Leaf GExtend 1)
         (Leaf GSpacing 1))
        (Le 0x1C37
         (Leaf GExtend 1)
         (Le 0x1CCF
          (Leaf GOther 1)
          (Eq 0x1CD3
           (Leaf GOther 1)
           (Eq 0x1CE1
            (Leaf GSpacing 1)
            (Leaf GExtend 1))))))))))
   (Le 0x2757
    (Le 0x231B
     (Le 0x205F
      (Le 0x1DFF
       (Le 0x1CF9
        (Le 0x1CF7
         (Eq 0x1CED
          (Leaf GExtend 1)
          (Eq 0x1CF4
           (Leaf GExtend 1)
           (Eq 0x1CF7
            (Leaf GSpacing 1)
            (Leaf GOther 1))))
         (Leaf GExtend 1))
        (Le 0x1DBF
         (Leaf GOther 1)
         (Eq 0x1DFA
          (Leaf GOther 1)
          (Leaf GExtend 1))))
       (Le 0x200F
        (Le 0x200D
         (Eq 0x200B
          (Leaf GControl 1)
          (Eq 0x200C
           (Leaf GExtend 1)
           (Eq 0x200D
            (Leaf GZwj 1)
            (Leaf GOther 1))))
         (Leaf GControl 1))
        (Le 0x2027
         (Leaf GOther 1)
         (Le 0x202E
          (Leaf GControl 1)
          (Eq 0x203C
           (Leaf GXPic 1)
           (Eq 0x2049
            (Leaf GXPic 1)
            (Leaf GOther 1)))))))
      (Le 0x2193
       (Le 0x20CF
        (Le 0x206F
         (Leaf GControl 1)
         (Leaf GOther 1))
        (Le 0x20F0
         (Leaf GExtend 1)
         (Eq 0x2122
          (Leaf GXPic 1)
          (Eq 0x2139
           (Leaf GXPic 1)
           (Leaf GOther 1)))))
       (Le 0x21A8
        (Le 0x2199
         (Leaf GXPic 1)
         (Leaf GOther 1))
        (Le 0x21AA
         (Leaf GXPic 1)
         (Le 0x2319
          (Leaf GOther 1)
          (Leaf GXPic 1))))))
     (Le 0x25FA
      (Le 0x23F3
       (Le 0x232A
        (Le 0x2328
         (Eq 0x2328
          (Leaf GXPic 1)
          (Leaf GOther 1))
         (Leaf GOther 2))
        (Le 0x23E8
         (Eq 0x2388
          (Leaf GXPic 1)
          (Eq 0x23CF
           (Leaf GXPic 1)
           (Leaf GOther 1)))
         (Leaf GXPic 1)))
       (Le 0x23FA
        (Le 0x23F7
         (Leaf GOther 1)
         (Leaf GXPic 1))
        (Le 0x25A9
         (Eq 0x24C2
          (Leaf GXPic 1)
          (Leaf GOther 1))
         (Le 0x25AB
          (Leaf GXPic 1)
          (Eq 0x25B6
           (Leaf GXPic 1)
           (Eq 0x25C0
            (Leaf GXPic 1)
            (Leaf GOther 1)))))))
      (Le 0x2707
       (Le 0x268F
        (Le 0x2685
         (Eq 0x25FF
          (Leaf GOther 1)
          (Eq 0x2606
           (Leaf GOther 1)
           (Eq 0x2613
            (Leaf GOther 1)
            (Leaf GXPic 1))))
         (Leaf GOther 1))
        (Le 0x2705
         (Leaf GXPic 1)
         (Leaf GOther 1)))
       (Le 0x2732
        (Le 0x2716
         (Eq 0x2713
          (Leaf GOther 1)
          (Eq 0x2715
           (Leaf GOther 1)
           (Leaf GXPic 1)))
         (Eq 0x271D
          (Leaf GXPic 1)
          (Eq 0x2721
           (Leaf GXPic 1)
           (Eq 0x2728
            (Leaf GXPic 1)
            (Leaf GOther 1)))))
        (Le 0x2734
         (Leaf GXPic 1)
         (Le 0x2752
          (Eq 0x2744
           (Leaf GXPic 1)
           (Eq 0x2747
            (Leaf GXPic 1)
            (Eq 0x274C
             (Leaf GXPic 1)
             (Eq 0x274E
              (Leaf GXPic 1)
              (Leaf GOther 1)))))
          (Eq 0x2756
           (Leaf GOther 1)
           (Leaf GXPic 1))))))))
    (Le 0x3098
     (Le 0x2B1A
      (Le 0x2797
       (Le 0x2767
        (Le 0x2762
         (Leaf GOther 1)
         (Leaf GXPic 1))
        (Le 0x2794
         (Leaf GOther 1)
         (Leaf GXPic 1)))
       (Le 0x2935
        (Le 0x2933
         (Eq 0x27A1
          (Leaf GXPic 1)
          (Eq 0x27B0
           (Leaf GXPic 1)
           (Eq 0x27BF
            (Leaf GXPic 1)
            (Leaf GOther 1))))
         (Leaf GXPic 1))
        (Le 0x2B04
         (Leaf GOther 1)
         (Le 0x2B07
          (Leaf GXPic 1)
          (Leaf GOther 1)))))
      (Le 0x2DDF
       (Le 0x2CEE
        (Le 0x2B1C
         (Leaf GXPic 1)
         (Eq 0x2B50
          (Leaf GXPic 1)
          (Eq 0x2B55
           (Leaf GXPic 1)
           (Leaf GOther 1))))
        (Le 0x2CF1
         (Leaf GExtend 1)
         (Eq 0x2D7F
          (Leaf GExtend 1)
          (Leaf GOther 1))))
       (Le 0x2E7F
        (Le 0x2DFF
         (Leaf GExtend 1)
         (Leaf GOther 1))
        (Le 0x3029
         (Leaf GOther 2)
         (Le 0x3030
          (Eq 0x3030
           (Leaf GXPic 2)
           (Leaf GExtend 2))
          (Eq 0x303D
           (Leaf GXPic 2)
           (Eq 0x303F
            (Leaf GOther 1)
            (Leaf GOther 2))))))))
     (Le 0xA822
      (Le 0xA67D
       (Le 0xA4CF
        (Le 0x309A
         (Leaf GExtend 2)
         (Eq 0x3297
          (Leaf GXPic 2)
          (Eq 0x3299
           (Leaf GXPic 2)
           (Leaf GOther 2))))
        (Le 0xA66E
         (Leaf GOther 1)
         (Eq 0xA673
          (Leaf GOther 1)
          (Leaf GExtend 1))))
       (Le 0xA69F
        (Le 0xA69D
         (Leaf GOther 1)
         (Leaf GExtend 1))
        (Le 0xA6EF
         (Leaf GOther 1)
         (Le 0xA6F1
          (Leaf GExtend 1)
          (Eq 0xA802
           (Leaf GExtend 1)
           (Eq 0xA806
            (Leaf GExtend 1)
            (Eq 0xA80B
             (Leaf GExtend 1)
             (Leaf GOther 1))))))))
      (Le 0xA881
       (Le 0xA827
        (Le 0xA824
         (Leaf GSpacing 1)
         (Eq 0xA827
          (Leaf GSpacing 1)
          (Leaf GExtend 1)))
        (Le 0xA87F
         (Eq 0xA82C
          (Leaf GExtend 1)
          (Leaf GOther 1))
         (Leaf GSpacing 1)))
       (Le 0xA8C3
        (Le 0xA8B3
         (Leaf GOther 1)
         (Leaf GSpacing 1))
        (Le 0xA8C5
         (Leaf GExtend 1)
         (Le 0xA8DF
          (Leaf GOther 1)
          (Leaf GExtend 1))))))))))
 (Le 0x116AF
  (Le 0x11037
   (Le 0xD7AF
    (Le 0xAA2E
     (Le 0xA97F
      (Le 0xA951
       (Le 0xA92D
        (Le 0xA925
         (Eq 0xA8FF
          (Leaf GExtend 1)
          (Leaf GOther 1))
         (Leaf GExtend 1))
        (Le 0xA946
         (Leaf GOther 1)
         (Leaf GExtend 1)))
       (Le 0xA95F
        (Le 0xA953
         (Leaf GSpacing 1)
         (Leaf GOther 1))
        (Le 0xA97C
         (Leaf GHangulL 1)
         (Leaf GOther 1))))
      (Le 0xA9B9
       (Le 0xA9B3
        (Le 0xA983
         (Eq 0xA983
          (Leaf GSpacing 1)
          (Leaf GExtend 1))
         (Eq 0xA9B3
          (Leaf GExtend 1)
          (Leaf GOther 1)))
        (Le 0xA9B5
         (Leaf GSpacing 1)
         (Leaf GExtend 1)))
       (Le 0xA9BD
        (Le 0xA9BB
         (Leaf GSpacing 1)
         (Leaf GExtend 1))
        (Le 0xA9C0
         (Leaf GSpacing 1)
         (Le 0xAA28
          (Eq 0xA9E5
           (Leaf GExtend 1)
           (Leaf GOther 1))
          (Leaf GExtend 1))))))
     (Le 0xAABD
      (Le 0xAA36
       (Le 0xAA32
        (Le 0xAA30
         (Leaf GSpacing 1)
         (Leaf GExtend 1))
        (Le 0xAA34
         (Leaf GSpacing 1)
         (Leaf GExtend 1)))
       (Le 0xAAB4
        (Le 0xAAB1
         (Eq 0xAA43
          (Leaf GExtend 1)
          (Eq 0xAA4C
           (Leaf GExtend 1)
           (Eq 0xAA4D
            (Leaf GSpacing 1)
            (Eq 0xAA7C
             (Leaf GExtend 1)
             (Eq 0xAAB0
              (Leaf GExtend 1)
              (Leaf GOther 1))))))
         (Leaf GExtend 1))
        (Le 0xAAB6
         (Leaf GOther 1)
         (Le 0xAAB8
          (Leaf GExtend 1)
          (Leaf GOther 1)))))
      (Le 0xAAEF
       (Le 0xAAEB
        (Le 0xAAC1
         (Eq 0xAAC0
          (Leaf GOther 1)
          (Leaf GExtend 1))
         (Eq 0xAAEB
          (Leaf GSpacing 1)
          (Leaf GOther 1)))
        (Le 0xAAED
         (Leaf GExtend 1)
         (Leaf GSpacing 1)))
       (Le 0xABED
        (Le 0xABE2
         (Eq 0xAAF5
          (Leaf GSpacing 1)
          (Eq 0xAAF6
           (Leaf GExtend 1)
           (Leaf GOther 1)))
         (Eq 0xABE5
          (Leaf GExtend 1)
          (Eq 0xABE8
           (Leaf GExtend 1)
           (Eq 0xABEB
            (Leaf GOther 1)
            (Eq 0xABED
             (Leaf GExtend 1)
             (Leaf GSpacing 1))))))
        (Le 0xABFF
         (Leaf GOther 1)
         (Le 0xD7A3
          (Leaf GHangulLVorLVT 2)
          (Leaf GOther 1)))))))
    (Le 0xFFEF
     (Le 0xFE1F
      (Le 0xF8FF
       (Le 0xD7CA
        (Le 0xD7C6
         (Leaf GHangulV 1)
         (Leaf GOther 1))
        (Le 0xD7FB
         (Leaf GHangulT 1)
         (Leaf GOther 1)))
       (Le 0xFDFF
        (Le 0xFAFF
         (Leaf GOther 2)
         (Eq 0xFB1E
          (Leaf GExtend 1)
          (Leaf GOther 1)))
        (Le 0xFE0F
         (Leaf GExtend 1)
         (Le 0xFE19
          (Leaf GOther 2)
          (Leaf GOther 1)))))
      (Le 0xFF60
       (Le 0xFE6F
        (Le 0xFE2F
         (Leaf GExtend 1)
         (Leaf GOther 2))
        (Le 0xFEFF
         (Eq 0xFEFF
          (Leaf GControl 1)
          (Leaf GOther 1))
         (Leaf GOther 2)))
       (Le 0xFF9F
        (Le 0xFF9D
         (Leaf GOther 1)
         (Leaf GExtend 1))
        (Le 0xFFDF
         (Leaf GOther 1)
         (Le 0xFFE6
          (Leaf GOther 2)
          (Leaf GOther 1))))))
     (Le 0x10A3A
      (Le 0x10A00
       (Le 0x10375
        (Le 0xFFFB
         (Leaf GControl 1)
         (Eq 0x101FD
          (Leaf GExtend 1)
          (Eq 0x102E0
           (Leaf GExtend 1)
           (Leaf GOther 1))))
        (Le 0x1037A
         (Leaf GExtend 1)
         (Leaf GOther 1)))
       (Le 0x10A0B
        (Le 0x10A06
         (Eq 0x10A04
          (Leaf GOther 1)
          (Leaf GExtend 1))
         (Leaf GOther 1))
        (Le 0x10A0F
         (Leaf GExtend 1)
         (Le 0x10A37
          (Leaf GOther 1)
          (Leaf GExtend 1)))))
      (Le 0x10D27
       (Le 0x10AE6
        (Le 0x10AE4
         (Eq 0x10A3F
          (Leaf GExtend 1)
          (Leaf GOther 1))
         (Leaf GExtend 1))
        (Le 0x10D23
         (Leaf GOther 1)
         (Leaf GExtend 1)))
       (Le 0x10EAC
        (Le 0x10EAA
         (Leaf GOther 1)
         (Leaf GExtend 1))
        (Le 0x10F45
         (Leaf GOther 1)
         (Le 0x10F50
          (Leaf GExtend 1)
          (Eq 0x11000
           (Leaf GSpacing 1)
           (Eq 0x11001
            (Leaf GExtend 1)
            (Eq 0x11002
             (Leaf GSpacing 1)
             (Leaf GOther 1)))))))))))
   (Le 0x11340
    (Le 0x111B5
     (Le 0x110FF
      (Le 0x110AF
       (Le 0x1107E
        (Le 0x11046
         (Leaf GExtend 1)
         (Leaf GOther 1))
        (Le 0x11082
         (Eq 0x11082
          (Leaf GSpacing 1)
          (Leaf GExtend 1))
         (Leaf GOther 1)))
       (Le 0x110B6
        (Le 0x110B2
         (Leaf GSpacing 1)
         (Leaf GExtend 1))
        (Le 0x110B8
         (Leaf GSpacing 1)
         (Le 0x110BA
          (Leaf GExtend 1)
          (Eq 0x110BD
           (Leaf GPrepend 1)
           (Eq 0x110CD
            (Leaf GPrepend 1)
            (Leaf GOther 1)))))))
      (Le 0x11144
       (Le 0x11126
        (Le 0x11102
         (Leaf GExtend 1)
         (Leaf GOther 1))
        (Le 0x11134
         (Eq 0x1112C
          (Leaf GSpacing 1)
          (Leaf GExtend 1))
         (Leaf GOther 1)))
       (Le 0x1117F
        (Le 0x11146
         (Leaf GSpacing 1)
         (Eq 0x11173
          (Leaf GExtend 1)
          (Leaf GOther 1)))
        (Le 0x11182
         (Eq 0x11182
          (Leaf GSpacing 1)
          (Leaf GExtend 1))
         (Le 0x111B2
          (Leaf GOther 1)
          (Leaf GSpacing 1))))))
     (Le 0x11235
      (Le 0x111C8
       (Le 0x111C1
        (Le 0x111BE
         (Leaf GExtend 1)
         (Eq 0x111C1
          (Leaf GOther 1)
          (Leaf GSpacing 1)))
        (Le 0x111C3
         (Leaf GPrepend 1)
         (Leaf GOther 1)))
       (Le 0x1122B
        (Le 0x111CF
         (Eq 0x111CD
          (Leaf GOther 1)
          (Eq 0x111CE
           (Leaf GSpacing 1)
           (Leaf GExtend 1)))
         (Leaf GOther 1))
        (Le 0x1122E
         (Leaf GSpacing 1)
         (Le 0x11231
          (Leaf GExtend 1)
          (Eq 0x11234
           (Leaf GExtend 1)
           (Leaf GSpacing 1))))))
      (Le 0x112EA
       (Le 0x112DF
        (Le 0x11237
         (Leaf GExtend 1)
         (Eq 0x1123E
          (Leaf GExtend 1)
          (Eq 0x112DF
           (Leaf GExtend 1)
           (Leaf GOther 1))))
        (Le 0x112E2
         (Leaf GSpacing 1)
         (Leaf GExtend 1)))
       (Le 0x11301
        (Le 0x112FF
         (Leaf GOther 1)
         (Leaf GExtend 1))
        (Le 0x11303
         (Leaf GSpacing 1)
         (Le 0x1133A
          (Leaf GOther 1)
          (Eq 0x1133D
           (Leaf GOther 1)
           (Eq 0x1133F
            (Leaf GSpacing 1)
            (Leaf GExtend 1)))))))))
    (Le 0x114B2
     (Le 0x1136C
      (Le 0x1134A
       (Le 0x11346
        (Le 0x11344
         (Leaf GSpacing 1)
         (Leaf GOther 1))
        (Le 0x11348
         (Leaf GSpacing 1)
         (Leaf GOther 1)))
       (Le 0x11361
        (Le 0x1134D
         (Leaf GSpacing 1)
         (Eq 0x11357
          (Leaf GExtend 1)
          (Leaf GOther 1)))
        (Le 0x11363
         (Leaf GSpacing 1)
         (Le 0x11365
          (Leaf GOther 1)
          (Leaf GExtend 1)))))
      (Le 0x11437
       (Le 0x11374
        (Le 0x1136F
         (Leaf GOther 1)
         (Leaf GExtend 1))
        (Le 0x11434
         (Leaf GOther 1)
         (Leaf GSpacing 1)))
       (Le 0x11441
        (Le 0x1143F
         (Leaf GExtend 1)
         (Leaf GSpacing 1))
        (Le 0x11446
         (Eq 0x11445
          (Leaf GSpacing 1)
          (Leaf GExtend 1))
         (Le 0x114B0
          (Eq 0x1145E
           (Leaf GExtend 1)
           (Eq 0x114B0
            (Leaf GExtend 1)
            (Leaf GOther 1)))
          (Leaf GSpacing 1))))))
     (Le 0x115C0
      (Le 0x115AF
       (Le 0x114BE
        (Le 0x114BA
         (Eq 0x114B9
          (Leaf GSpacing 1)
          (Leaf GExtend 1))
         (Eq 0x114BD
          (Leaf GExtend 1)
          (Leaf GSpacing 1)))
        (Le 0x114C3
         (Eq 0x114C1
          (Leaf GSpacing 1)
          (Leaf GExtend 1))
         (Eq 0x115AF
          (Leaf GExtend 1)
          (Leaf GOther 1))))
       (Le 0x115B5
        (Le 0x115B1
         (Leaf GSpacing 1)
         (Leaf GExtend 1))
        (Le 0x115B7
         (Leaf GOther 1)
         (Le 0x115BB
          (Leaf GSpacing 1)
          (Eq 0x115BE
           (Leaf GSpacing 1)
           (Leaf GExtend 1))))))
      (Le 0x11632
       (Le 0x115DD
        (Le 0x115DB
         (Leaf GOther 1)
         (Leaf GExtend 1))
        (Le 0x1162F
         (Leaf GOther 1)
         (Leaf GSpacing 1)))
       (Le 0x1163E
        (Le 0x1163A
         (Leaf GExtend 1)
         (Eq 0x1163D
          (Leaf GExtend 1)
          (Leaf GSpacing 1)))
        (Le 0x11640
         (Leaf GExtend 1)
         (Le 0x116AD
          (Eq 0x116AB
           (Leaf GExtend 1)
           (Eq 0x116AC
            (Leaf GSpacing 1)
            (Eq 0x116AD
             (Leaf GExtend 1)
             (Leaf GOther 1))))
          (Leaf GSpacing 1)))))))))
  (Le 0x1D9FF
   (Le 0x11D3B
    (Le 0x119E0
     (Le 0x11930
      (Le 0x11721
       (Le 0x1171C
        (Le 0x116B7
         (Eq 0x116B6
          (Leaf GSpacing 1)
          (Leaf GExtend 1))
         (Leaf GOther 1))
        (Le 0x1171F
         (Leaf GExtend 1)
         (Leaf GOther 1)))
       (Le 0x1182B
        (Le 0x1172B
         (Eq 0x11726
          (Leaf GSpacing 1)
          (Leaf GExtend 1))
         (Leaf GOther 1))
        (Le 0x1182E
         (Leaf GSpacing 1)
         (Le 0x1183A
          (Eq 0x11838
           (Leaf GSpacing 1)
           (Leaf GExtend 1))
          (Eq 0x11930
           (Leaf GExtend 1)
           (Leaf GOther 1))))))
      (Le 0x119D0
       (Le 0x1193A
        (Le 0x11938
         (Eq 0x11936
          (Leaf GOther 1)
          (Leaf GSpacing 1))
         (Leaf GOther 1))
        (Le 0x11943
         (Eq 0x1193D
          (Leaf GSpacing 1)
          (Eq 0x1193F
           (Leaf GPrepend 1)
           (Eq 0x11940
            (Leaf GSpacing 1)
            (Eq 0x11941
             (Leaf GPrepend 1)
             (Eq 0x11942
              (Leaf GSpacing 1)
              (Leaf GExtend 1))))))
         (Leaf GOther 1)))
       (Le 0x119D7
        (Le 0x119D3
         (Leaf GSpacing 1)
         (Leaf GExtend 1))
        (Le 0x119D9
         (Leaf GOther 1)
         (Le 0x119DB
          (Leaf GExtend 1)
          (Eq 0x119E0
           (Leaf GExtend 1)
           (Leaf GSpacing 1)))))))
     (Le 0x11A83
      (Le 0x11A3E
       (Le 0x11A0A
        (Le 0x11A00
         (Eq 0x119E4
          (Leaf GSpacing 1)
          (Leaf GOther 1))
         (Leaf GExtend 1))
        (Le 0x11A32
         (Leaf GOther 1)
         (Eq 0x11A39
          (Leaf GSpacing 1)
          (Eq 0x11A3A
           (Leaf GPrepend 1)
           (Leaf GExtend 1)))))
       (Le 0x11A56
        (Le 0x11A50
         (Eq 0x11A47
          (Leaf GExtend 1)
          (Leaf GOther 1))
         (Leaf GExtend 1))
        (Le 0x11A58
         (Leaf GSpacing 1)
         (Le 0x11A5B
          (Leaf GExtend 1)
          (Leaf GOther 1)))))
      (Le 0x11C3F
       (Le 0x11A99
        (Le 0x11A89
         (Leaf GPrepend 1)
         (Eq 0x11A97
          (Leaf GSpacing 1)
          (Leaf GExtend 1)))
        (Le 0x11C2F
         (Eq 0x11C2F
          (Leaf GSpacing 1)
          (Leaf GOther 1))
         (Eq 0x11C37
          (Leaf GOther 1)
          (Eq 0x11C3E
           (Leaf GSpacing 1)
           (Leaf GExtend 1)))))
       (Le 0x11CB6
        (Le 0x11C91
         (Leaf GOther 1)
         (Eq 0x11CA8
          (Leaf GOther 1)
          (Eq 0x11CA9
           (Leaf GSpacing 1)
           (Eq 0x11CB1
            (Leaf GSpacing 1)
            (Eq 0x11CB4
             (Leaf GSpacing 1)
             (Leaf GExtend 1))))))
        (Le 0x11D30
         (Leaf GOther 1)
         (Le 0x11D36
          (Leaf GExtend 1)
          (Eq 0x11D3A
           (Leaf GExtend 1)
           (Leaf GOther 1))))))))
    (Le 0x16F92
     (Le 0x1342F
      (Le 0x11D92
       (Le 0x11D89
        (Le 0x11D47
         (Eq 0x11D3E
          (Leaf GOther 1)
          (Eq 0x11D46
           (Leaf GPrepend 1)
           (Leaf GExtend 1)))
         (Leaf GOther 1))
        (Le 0x11D8F
         (Eq 0x11D8F
          (Leaf GOther 1)
          (Leaf GSpacing 1))
         (Eq 0x11D92
          (Leaf GOther 1)
          (Leaf GExtend 1))))
       (Le 0x11EF2
        (Le 0x11D97
         (Eq 0x11D95
          (Leaf GExtend 1)
          (Eq 0x11D97
           (Leaf GExtend 1)
           (Leaf GSpacing 1)))
         (Leaf GOther 1))
        (Le 0x11EF4
         (Leaf GExtend 1)
         (Le 0x11EF6
          (Leaf GSpacing 1)
          (Leaf GOther 1)))))
      (Le 0x16B2F
       (Le 0x16AEF
        (Le 0x13438
         (Leaf GControl 1)
         (Leaf GOther 1))
        (Le 0x16AF4
         (Leaf GExtend 1)
         (Leaf GOther 1)))
       (Le 0x16F50
        (Le 0x16B36
         (Leaf GExtend 1)
         (Eq 0x16F4F
          (Leaf GExtend 1)
          (Leaf GOther 1)))
        (Le 0x16F87
         (Leaf GSpacing 1)
         (Le 0x16F8E
          (Leaf GOther 1)
          (Leaf GExtend 1))))))
     (Le 0x1D172
      (Le 0x1BC9F
       (Le 0x16FF1
        (Le 0x16FEF
         (Eq 0x16FE4
          (Leaf GExtend 1)
          (Leaf GOther 1))
         (Leaf GSpacing 1))
        (Le 0x1BC9C
         (Leaf GOther 1)
         (Eq 0x1BC9F
          (Leaf GOther 1)
          (Leaf GExtend 1))))
       (Le 0x1D166
        (Le 0x1BCA3
         (Leaf GControl 1)
         (Eq 0x1D165
          (Leaf GExtend 1)
          (Eq 0x1D166
           (Leaf GSpacing 1)
           (Leaf GOther 1))))
        (Le 0x1D169
         (Leaf GExtend 1)
         (Le 0x1D16D
          (Eq 0x1D16D
           (Leaf GSpacing 1)
           (Leaf GOther 1))
          (Leaf GExtend 1)))))
      (Le 0x1D18B
       (Le 0x1D182
        (Le 0x1D17A
         (Leaf GControl 1)
         (Leaf GExtend 1))
        (Le 0x1D184
         (Leaf GOther 1)
         (Leaf GExtend 1)))
       (Le 0x1D1AD
        (Le 0x1D1A9
         (Leaf GOther 1)
         (Leaf GExtend 1))
        (Le 0x1D241
         (Leaf GOther 1)
         (Le 0x1D244
          (Leaf GExtend 1)
          (Leaf GOther 1))))))))
   (Le 0x1F3FA
    (Le 0x1EFFF
     (Le 0x1E02A
      (Le 0x1DA9A
       (Le 0x1DA3A
        (Le 0x1DA36
         (Leaf GExtend 1)
         (Leaf GOther 1))
        (Le 0x1DA6C
         (Leaf GExtend 1)
         (Eq 0x1DA75
          (Leaf GExtend 1)
          (Eq 0x1DA84
           (Leaf GExtend 1)
           (Leaf GOther 1)))))
       (Le 0x1DFFF
        (Le 0x1DAAF
         (Eq 0x1DAA0
          (Leaf GOther 1)
          (Leaf GExtend 1))
         (Leaf GOther 1))
        (Le 0x1E018
         (Eq 0x1E007
          (Leaf GOther 1)
          (Leaf GExtend 1))
         (Le 0x1E01A
          (Leaf GOther 1)
          (Eq 0x1E022
           (Leaf GOther 1)
           (Eq 0x1E025
            (Leaf GOther 1)
            (Leaf GExtend 1)))))))
      (Le 0x1E2EF
       (Le 0x1E136
        (Le 0x1E12F
         (Leaf GOther 1)
         (Leaf GExtend 1))
        (Le 0x1E2EB
         (Leaf GOther 1)
         (Leaf GExtend 1)))
       (Le 0x1E8D6
        (Le 0x1E8CF
         (Leaf GOther 1)
         (Leaf GExtend 1))
        (Le 0x1E943
         (Leaf GOther 1)
         (Le 0x1E94A
          (Leaf GExtend 1)
          (Leaf GOther 1))))))
     (Le 0x1F19A
      (Le 0x1F16B
       (Le 0x1F10C
        (Le 0x1F0FF
         (Leaf GXPic 1)
         (Leaf GOther 1))
        (Le 0x1F10F
         (Leaf GXPic 1)
         (Eq 0x1F12F
          (Leaf GXPic 1)
          (Leaf GOther 1))))
       (Le 0x1F17D
        (Le 0x1F171
         (Leaf GXPic 1)
         (Leaf GOther 1))
        (Le 0x1F17F
         (Leaf GXPic 1)
         (Le 0x1F190
          (Eq 0x1F18E
           (Leaf GXPic 1)
           (Leaf GOther 1))
          (Leaf GXPic 1)))))
      (Le 0x1F20F
       (Le 0x1F1E5
        (Le 0x1F1AC
         (Leaf GOther 1)
         (Leaf GXPic 1))
        (Le 0x1F1FF
         (Leaf GRI 1)
         (Eq 0x1F200
          (Leaf GOther 1)
          (Leaf GXPic 1))))
       (Le 0x1F23F
        (Le 0x1F231
         (Eq 0x1F21A
          (Leaf GXPic 1)
          (Eq 0x1F22F
           (Leaf GXPic 1)
           (Leaf GOther 1)))
         (Eq 0x1F23B
          (Leaf GOther 1)
          (Leaf GXPic 1)))
        (Le 0x1F248
         (Leaf GOther 1)
         (Le 0x1F2FF
          (Leaf GXPic 1)
          (Leaf GXPic 2)))))))
    (Le 0x1F88F
     (Le 0x1F7D4
      (Le 0x1F64F
       (Le 0x1F53D
        (Le 0x1F3FF
         (Leaf GExtend 2)
         (Leaf GXPic 2))
        (Le 0x1F545
         (Leaf GOther 2)
         (Leaf GXPic 2)))
       (Le 0x1F6FF
        (Le 0x1F67F
         (Leaf GOther 1)
         (Leaf GXPic 1))
        (Le 0x1F773
         (Leaf GOther 1)
         (Le 0x1F77F
          (Leaf GXPic 1)
          (Leaf GOther 1)))))
      (Le 0x1F847
       (Le 0x1F80B
        (Le 0x1F7FF
         (Leaf GXPic 1)
         (Leaf GOther 1))
        (Le 0x1F80F
         (Leaf GXPic 1)
         (Leaf GOther 1)))
       (Le 0x1F859
        (Le 0x1F84F
         (Leaf GXPic 1)
         (Leaf GOther 1))
        (Le 0x1F85F
         (Leaf GXPic 1)
         (Le 0x1F887
          (Leaf GOther 1)
          (Leaf GXPic 1))))))
     (Le 0x2FFFD
      (Le 0x1F9FF
       (Le 0x1F8FF
        (Le 0x1F8AD
         (Leaf GOther 1)
         (Leaf GXPic 1))
        (Le 0x1F90B
         (Leaf GOther 2)
         (Eq 0x1F93B
          (Leaf GOther 2)
          (Eq 0x1F946
           (Leaf GOther 2)
           (Leaf GXPic 2)))))
       (Le 0x1FBFF
        (Le 0x1FAFF
         (Leaf GXPic 1)
         (Leaf GOther 1))
        (Le 0x1FFFD
         (Leaf GXPic 1)
         (Le 0x1FFFF
          (Leaf GOther 1)
          (Leaf GOther 2)))))
      (Le 0xE001F
       (Le 0x3FFFD
        (Le 0x2FFFF
         (Leaf GOther 1)
         (Leaf GOther 2))
        (Le 0xDFFFF
         (Leaf GOther 1)
         (Leaf GControl 1)))
       (Le 0xE00FF
        (Le 0xE007F
         (Leaf GExtend 1)
         (Leaf GControl 1))
        (Le 0xE01EF
         (Leaf GExtend 1)
         (Le 0xE0FFF
          (Leaf GControl 1)
          (Leaf GOther 1))))))))))).
Lemma gcb_tree_ok ch : gcb_table ch = deval gcb_tree ch.
Proof. reflexivity. Qed.
