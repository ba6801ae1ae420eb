*.vo
*.vok
*.vos
*.glob
.*.aux
*.aux
Makefile
Makefile.conf
Makefile.*
.Makefile.d
.lia.cache
.nia.cache
.nra.cache
.coqdeps.d
