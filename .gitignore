*.vo
*.vok
*.vos
*.glob
.*.aux
*.d
Makefile
Makefile.conf
.Makefile.d
.lia.cache
.nia.cache
*.aux
rocq/b.sh
