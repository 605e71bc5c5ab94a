*.glob
*.vo
*.vok
*.vos
.*.aux
.Makefile.d
.lia.cache
.nia.cache
CoqMakefile*
Makefile
Makefile.conf
