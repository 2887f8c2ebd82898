*.vo
*.vok
*.vos
*.glob
*.aux
.*.aux
.lia.cache
.nia.cache
.nra.cache
.psatz.cache
Makefile
Makefile.conf
.Makefile.d
